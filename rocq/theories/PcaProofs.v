(** Proofs about the programmable counter array. *)
From Verif Require Import Base PcaModel PcaSpec.
Local Arguments Z.testbit : simpl never.
Local Arguments Z.lor : simpl never.
Local Arguments Z.lxor : simpl never.
Local Arguments Z.eqb : simpl never.

Lemma bit_pow v k : 0 <= k -> bit v (2 ^ k) = Z.testbit v k.
Proof.
  intros K. unfold bit. destruct (Z.testbit v k) eqn:E.
  - destruct (Z.land v (2 ^ k) =? 0) eqn:Q; [|reflexivity]. exfalso.
    assert (X : Z.testbit (Z.land v (2 ^ k)) k = true) by (rewrite Z.land_spec, E, Z.pow2_bits_true by lia; reflexivity).
    replace (Z.land v (2 ^ k)) with 0 in X by lia. rewrite Z.bits_0 in X. discriminate.
  - replace (Z.land v (2 ^ k)) with 0; [reflexivity|]. apply Z.bits_inj'. intros j J.
    rewrite Z.bits_0, Z.land_spec, Z.pow2_bits_eqb by lia. destruct (k =? j) eqn:Q; [|rewrite andb_false_r; reflexivity].
    replace j with k by lia. rewrite E. reflexivity.
Qed.
Lemma bit80 v : bit v 0x80 = Z.testbit v 7. Proof. exact (bit_pow v 7 ltac:(lia)). Qed.
Lemma bit40 v : bit v 0x40 = Z.testbit v 6. Proof. exact (bit_pow v 6 ltac:(lia)). Qed.
Lemma bit20 v : bit v 0x20 = Z.testbit v 5. Proof. exact (bit_pow v 5 ltac:(lia)). Qed.
Lemma bit10 v : bit v 0x10 = Z.testbit v 4. Proof. exact (bit_pow v 4 ltac:(lia)). Qed.
Lemma bit4 v : bit v 0x04 = Z.testbit v 2. Proof. exact (bit_pow v 2 ltac:(lia)). Qed.
Lemma bit2 v : bit v 0x02 = Z.testbit v 1. Proof. exact (bit_pow v 1 ltac:(lia)). Qed.
Lemma cex_pow i : 0 <= i -> cex i = 2 ^ (i + 3).
Proof. intros. unfold cex. rewrite Z.pow_add_r by lia. lia. Qed.
Ltac bits := rewrite ?bit80, ?bit40, ?bit20, ?bit10, ?bit4, ?bit2.

(** ** one module *)
Definition same (s t : pca) : Prop :=
  cl t = cl s /\ ch t = ch s /\ modes t = modes s /\ ccapm t = ccapm s /\ clk t = clk s /\ cidl t = cidl s /\ wdte t = wdte s /\ cr t = cr s.
Definition edges (s t : pca) : Prop := (t0s t = t0s s /\ ecis t = ecis s) \/ (t0s t = 0 /\ ecis t = 0).
Lemma same_refl s : same s s. Proof. repeat split. Qed.
Lemma same_trans s t u : same s t -> same t u -> same s u.
Proof. unfold same. intros (?&?&?&?&?&?&?&?) (?&?&?&?&?&?&?&?). repeat split; congruence. Qed.
Lemma edges_refl s : edges s s. Proof. left. auto. Qed.
Lemma edges_trans s t u : edges s t -> edges t u -> edges s u.
Proof. unfold edges. intros [[]|[]] [[]|[]]; [left|right|right|right]; split; congruence. Qed.

(** the two halves of a module's work *)
Definition half1 (i : Z) (s : pca) : pca :=
  let a := bit (ccapm s i) 0x20 && pos s i in
  let s := if a then set_cex (upd (pos s) i false) (neg s) s else s in
  let b := bit (ccapm s i) 0x10 && neg s i in
  let s := if b then set_cex (upd (pos s) i false) (neg s) s else s in
  if a || b then set_ccon (Z.lor (ccon s) (ccf i)) (set_caph (upd (caph s) i (ch s)) (set_capl (upd (capl s) i (cl s)) s)) else s.
Definition pwm (i : Z) (s : pca) : pca :=
  if bit (ccapm s i) 0x02 then (if cl s <? capl s i then set_p1 (Z.lor (p1 s) (cex i)) s else set_p1 (Z.lor (p1 s) (cex i)) s) else s.
Definition tog (i : Z) (s : pca) : pca := if bit (ccapm s i) 0x04 then set_p1 (Z.lxor (p1 s) (cex i)) s else s.
Definition half2 (i : Z) (s : pca) : pca :=
  if bit (ccapm s i) 0x40 then
    if (cl s =? capl s i) && (ch s =? caph s i) then
      if (i =? 4) && wdte s then reset s else pwm i (tog i (set_ccon (Z.lor (ccon s) (ccf i)) s))
    else pwm i s
  else s.
Lemma module_halves i s : module i s = half2 i (half1 i s). Proof. reflexivity. Qed.

Lemma pwm_form i s : pwm i s = if bit (ccapm s i) 0x02 then set_p1 (Z.lor (p1 s) (cex i)) s else s.
Proof. unfold pwm. destruct (cl s <? capl s i); reflexivity. Qed.
Lemma half1_form i s : exists p x y z, half1 i s = set_cex p (neg s) (set_ccon z (set_caph y (set_capl x s))) /\
  (forall n, n <> i -> x n = capl s n /\ y n = caph s n /\ p n = pos s n) /\ (z = ccon s \/ z = Z.lor (ccon s) (ccf i)).
Proof.
  unfold half1. cbv zeta. destruct (bit (ccapm s i) 32 && pos s i) eqn:A; cbn.
  - destruct (bit (ccapm s i) 16 && neg s i); cbn; do 4 eexists; (split; [reflexivity|]); (split; [|auto]); intros n D; unfold upd; cbn; replace (n =? i) with false by lia; auto.
  - destruct (bit (ccapm s i) 16 && neg s i); cbn.
    + do 4 eexists; (split; [reflexivity|]); (split; [|auto]); intros n D; unfold upd; cbn; replace (n =? i) with false by lia; auto.
    + exists (pos s), (capl s), (caph s), (ccon s). split; [destruct s; reflexivity|]. auto.
Qed.
Lemma half2_form i s : half2 i s = reset s \/ exists z p, half2 i s = set_p1 p (set_ccon z s) /\
  (z = ccon s \/ z = Z.lor (ccon s) (ccf i)) /\
  (p = p1 s \/ p = Z.lor (p1 s) (cex i) \/ p = Z.lxor (p1 s) (cex i) \/ p = Z.lor (Z.lxor (p1 s) (cex i)) (cex i)).
Proof.
  assert (I : forall p, set_p1 p s = set_p1 p (set_ccon (ccon s) s)) by (intros p; destruct s; reflexivity).
  assert (J : s = set_p1 (p1 s) (set_ccon (ccon s) s)) by (destruct s; reflexivity).
  unfold half2. destruct (bit (ccapm s i) 64); [|right; exists (ccon s), (p1 s); auto].
  destruct ((cl s =? capl s i) && (ch s =? caph s i)).
  - destruct ((i =? 4) && wdte s); [left; reflexivity|right]. rewrite pwm_form. unfold tog.
    change (ccapm (set_ccon (Z.lor (ccon s) (ccf i)) s)) with (ccapm s).
    exists (Z.lor (ccon s) (ccf i)).
    destruct (bit (ccapm s i) 4); [change (ccapm (set_p1 (Z.lxor (p1 (set_ccon (Z.lor (ccon s) (ccf i)) s)) (cex i)) (set_ccon (Z.lor (ccon s) (ccf i)) s))) with (ccapm s)
      |change (ccapm (set_ccon (Z.lor (ccon s) (ccf i)) s)) with (ccapm s)]; destruct (bit (ccapm s i) 2).
    + exists (Z.lor (Z.lxor (p1 s) (cex i)) (cex i)). auto 10.
    + exists (Z.lxor (p1 s) (cex i)). auto 10.
    + exists (Z.lor (p1 s) (cex i)). auto 10.
    + exists (p1 s). auto 10.
  - right. rewrite pwm_form. destruct (bit (ccapm s i) 2).
    + exists (ccon s), (Z.lor (p1 s) (cex i)). rewrite I. auto 10.
    + exists (ccon s), (p1 s). auto 10.
Qed.
Lemma half2_dog i s : wdte s = false \/ i <> 4 -> pos (half2 i s) = pos s /\ neg (half2 i s) = neg s.
Proof.
  intros W. unfold half2. destruct (bit (ccapm s i) 64); [|auto].
  replace ((i =? 4) && wdte s) with false by (destruct W as [-> |]; [rewrite andb_false_r; reflexivity|replace (i =? 4) with false by lia; reflexivity]).
  rewrite !pwm_form. unfold tog. cbn.
  destruct ((cl s =? capl s i) && (ch s =? caph s i)), (bit (ccapm s i) 4); cbn; destruct (bit (ccapm s i) 2); auto.
Qed.
Lemma module_same i s : same s (module i s).
Proof.
  rewrite module_halves. apply (same_trans s (half1 i s)).
  - destruct (half1_form i s) as (p & x & y & z & -> & _). repeat split.
  - destruct (half2_form i (half1 i s)) as [-> | (z & p & -> & _)]; repeat split.
Qed.
Lemma module_edges i s : edges s (module i s).
Proof.
  rewrite module_halves. apply (edges_trans s (half1 i s)).
  - destruct (half1_form i s) as (p & x & y & z & -> & _). left. auto.
  - destruct (half2_form i (half1 i s)) as [-> | (z & p & -> & _)]; [right|left]; auto.
Qed.
(** another module's flag, pin and register *)
Lemma module_other i n s : 0 <= i -> 0 <= n -> i <> n ->
  capl (module i s) n = capl s n /\ caph (module i s) n = caph s n /\ flag (module i s) n = flag s n /\ pin (module i s) n = pin s n.
Proof.
  intros I N D.
  assert (F : forall v, Z.testbit (Z.lor v (ccf i)) n = Z.testbit v n).
  { intros v. unfold ccf. rewrite Z.lor_spec, Z.pow2_bits_eqb by lia. replace (i =? n) with false by lia. apply orb_false_r. }
  assert (G : forall v, Z.testbit (Z.lor v (cex i)) (n + 3) = Z.testbit v (n + 3)).
  { intros v. rewrite cex_pow, Z.lor_spec, Z.pow2_bits_eqb by lia. replace (i + 3 =? n + 3) with false by lia. apply orb_false_r. }
  assert (H : forall v, Z.testbit (Z.lxor v (cex i)) (n + 3) = Z.testbit v (n + 3)).
  { intros v. rewrite cex_pow, Z.lxor_spec, Z.pow2_bits_eqb by lia. replace (i + 3 =? n + 3) with false by lia. apply xorb_false_r. }
  assert (A : capl (half1 i s) n = capl s n /\ caph (half1 i s) n = caph s n /\ flag (half1 i s) n = flag s n /\ pin (half1 i s) n = pin s n).
  { destruct (half1_form i s) as (p & x & y & z & -> & K & [-> | ->]); destruct (K n ltac:(lia)) as (A & B & _); unfold flag, pin; cbn; rewrite ?F; auto. }
  destruct A as (A1 & A2 & A3 & A4). rewrite module_halves.
  destruct (half2_form i (half1 i s)) as [-> | (z & p & -> & Hz & Hp)]; unfold flag, pin in *; cbn; auto.
  split; [exact A1|]. split; [exact A2|]. split; [destruct Hz as [-> | ->]; rewrite ?F; exact A3|].
  destruct Hp as [-> | [-> | [-> | ->]]]; rewrite ?G, ?H; exact A4.
Qed.
Lemma module_other_edges i n s : i <> n -> (wdte s = false \/ i <> 4) -> pos (module i s) n = pos s n /\ neg (module i s) n = neg s n.
Proof.
  intros D W. rewrite module_halves. destruct (half1_form i s) as (p & x & y & z & E & K & _).
  destruct (K n ltac:(lia)) as (_ & _ & P). destruct (half2_dog i (half1 i s)) as (U & V); [rewrite E; exact W|].
  rewrite U, V, E. cbn. auto.
Qed.

(** the module's own, at the only time it is run *)
Definition capt (s : pca) (n : Z) : bool := (CAPP s n && pos s n) || (CAPN s n && neg s n).
Definition z_ (s : pca) (n : Z) : bool := ECOM s n && (capt s n || ((capl s n =? 0) && (caph s n =? 0))).
Definition dog (s : pca) (n : Z) : bool := (n =? 4) && wdte s.
Lemma half1_ok n s : 0 <= n -> cl s = 0 -> ch s = 0 ->
  let t := half1 n s in
  capl t n = (if capt s n then 0 else capl s n) /\ caph t n = (if capt s n then 0 else caph s n) /\
  flag t n = (flag s n || capt s n) /\ p1 t = p1 s /\ neg t n = neg s n /\ pos t n = (pos s n && negb (capt s n)) /\ same s t.
Proof.
  intros N C H.
  assert (F : forall v, Z.testbit (Z.lor v (ccf n)) n = true).
  { intros v. unfold ccf. rewrite Z.lor_spec, Z.pow2_bits_eqb by lia. rewrite Z.eqb_refl. apply orb_true_r. }
  unfold half1, capt, flag, CAPP, CAPN, same. cbv zeta. bits.
  destruct (Z.testbit (ccapm s n) 5) eqn:E5, (pos s n) eqn:EP; cbn; bits;
  destruct (Z.testbit (ccapm s n) 4) eqn:E4, (neg s n) eqn:EN; cbn;
  unfold upd; cbn; rewrite ?Z.eqb_refl, ?EN, ?EP; cbn; rewrite ?F, ?C, ?H, ?EN, ?EP, ?orb_true_r, ?orb_false_r, ?andb_true_r, ?andb_false_r; repeat split; auto.
Qed.
Lemma half2_ok n s : 0 <= n -> cl s = 0 -> ch s = 0 ->
  let t := half2 n s in let z := ECOM s n && (capl s n =? 0) && (caph s n =? 0) in
  capl t n = capl s n /\ caph t n = caph s n /\
  flag t n = (flag s n || (z && negb (dog s n))) /\
  pin t n = (xorb (pin s n) (z && negb (dog s n) && TOG s n) || (ECOM s n && PWM s n && negb (z && dog s n))) /\
  neg t n = (neg s n && negb (z && dog s n)) /\ pos t n = (pos s n && negb (z && dog s n)).
Proof.
  intros N C H.
  assert (F : forall v, Z.testbit (Z.lor v (ccf n)) n = true).
  { intros v. unfold ccf. rewrite Z.lor_spec, Z.pow2_bits_eqb by lia. rewrite Z.eqb_refl. apply orb_true_r. }
  assert (G : forall v, Z.testbit (Z.lor v (cex n)) (n + 3) = true).
  { intros v. rewrite cex_pow, Z.lor_spec, Z.pow2_bits_eqb by lia. rewrite Z.eqb_refl. apply orb_true_r. }
  assert (L : forall v, Z.testbit (Z.lxor v (cex n)) (n + 3) = negb (Z.testbit v (n + 3))).
  { intros v. rewrite cex_pow, Z.lxor_spec, Z.pow2_bits_eqb by lia. rewrite Z.eqb_refl. apply xorb_true_r. }
  unfold half2, dog, flag, pin, ECOM, PWM, TOG. bits. rewrite C, H, !(Z.eqb_sym 0).
  destruct (Z.testbit (ccapm s n) 6) eqn:E6; cbn.
  2:{ rewrite ?andb_true_r, ?orb_false_r, ?xorb_false_r. auto 10. }
  destruct ((capl s n =? 0) && (caph s n =? 0)) eqn:X; cbn.
  - destruct ((n =? 4) && wdte s) eqn:W; cbn.
    + rewrite ?andb_false_r, ?orb_false_r, ?xorb_false_r. auto 10.
    + unfold pwm, tog. cbn. bits. destruct (Z.testbit (ccapm s n) 2) eqn:E2; cbn; bits; destruct (Z.testbit (ccapm s n) 1) eqn:E1; cbn;
      repeat match goal with |- context [if ?b then _ else _] => destruct b end; cbn;
      rewrite ?F, ?G, ?L, ?andb_true_r, ?xorb_true_r, ?xorb_false_r, ?orb_true_r, ?orb_false_r; auto 10.
  - unfold pwm. bits. rewrite ?andb_true_r, ?xorb_false_r. destruct (Z.testbit (ccapm s n) 1) eqn:E1; cbn;
      repeat match goal with |- context [if ?b then _ else _] => destruct b end; cbn;
      rewrite ?G, ?andb_true_r, ?xorb_false_r, ?orb_true_r, ?orb_false_r; auto 10.
Qed.
Lemma module_self n s : 0 <= n -> cl s = 0 -> ch s = 0 ->
  let t := module n s in
  capl t n = (if capt s n then 0 else capl s n) /\ caph t n = (if capt s n then 0 else caph s n) /\
  flag t n = (flag s n || capt s n || (z_ s n && negb (dog s n))) /\
  pin t n = (xorb (pin s n) (z_ s n && negb (dog s n) && TOG s n) || (ECOM s n && PWM s n && negb (z_ s n && dog s n))) /\
  neg t n = (neg s n && negb (z_ s n && dog s n)) /\
  pos t n = (pos s n && negb (capt s n) && negb (z_ s n && dog s n)).
Proof.
  intros N C H. rewrite module_halves. cbv zeta.
  destruct (half1_ok n s N C H) as (A1 & A2 & A3 & A4 & A5 & A6 & (B1 & B2 & _ & B4 & _ & _ & B7 & _)).
  destruct (half2_ok n (half1 n s) N ltac:(congruence) ltac:(congruence)) as (D1 & D2 & D3 & D4 & D5 & D6).
  cbv zeta in *. assert (Z : ECOM (half1 n s) n && (capl (half1 n s) n =? 0) && (caph (half1 n s) n =? 0) = z_ s n).
  { unfold z_, ECOM. rewrite B4, A1, A2. destruct (capt s n); cbn; [rewrite !andb_true_r|rewrite andb_assoc]; reflexivity. }
  assert (DG : dog (half1 n s) n = dog s n) by (unfold dog; rewrite B7; reflexivity).
  rewrite Z, DG in *. unfold TOG, PWM, ECOM, pin in *. rewrite B4, A4 in D4.
  rewrite D1, D2, D3, D4, D5, D6, A1, A2, A3, A5, A6. auto 10.
Qed.

(** ** the counter wraps *)
Definition cond (s : pca) (n : Z) : Prop := n = 4 \/ wdte s = false.
Lemma over_same s : same s (overflow s).
Proof.
  unfold overflow. do 5 (eapply same_trans; [|apply module_same]). repeat split.
Qed.
Lemma over_edges s : edges s (overflow s).
Proof. unfold overflow. do 5 (eapply edges_trans; [|apply module_edges]). left. auto. Qed.
Lemma lor80 v n : 0 <= n < 7 -> Z.testbit (Z.lor v 0x80) n = Z.testbit v n.
Proof. intros N. rewrite Z.lor_spec. change 0x80 with (2 ^ 7). rewrite Z.pow2_bits_eqb by lia. replace (7 =? n) with false by lia. apply orb_false_r. Qed.
Lemma over_cf s : Z.testbit (ccon (overflow s)) 7 = true.
Proof.
  assert (M : forall i s, 0 <= i < 5 -> Z.testbit (ccon (module i s)) 7 = Z.testbit (ccon s) 7).
  { intros i t I. destruct (module_other i 7 t ltac:(lia) ltac:(lia) ltac:(lia)) as (_ & _ & F & _). exact F. }
  unfold overflow. rewrite !M by lia. cbn. rewrite Z.lor_spec. change 0x80 with (2 ^ 7). rewrite Z.pow2_bits_true by lia. apply orb_true_r.
Qed.
(** everything about module n *)
Definition eqm (n : Z) (s t : pca) : Prop :=
  capl t n = capl s n /\ caph t n = caph s n /\ flag t n = flag s n /\ pin t n = pin s n.
Lemma eqm_trans n s t u : eqm n s t -> eqm n t u -> eqm n s u.
Proof. unfold eqm. intros (?&?&?&?) (?&?&?&?). repeat split; congruence. Qed.
Definition before (n : Z) (s : pca) : pca :=
  let s := set_ccon (Z.lor (ccon s) 0x80) s in
  let s := if 0 <? n then module 0 s else s in let s := if 1 <? n then module 1 s else s in
  let s := if 2 <? n then module 2 s else s in if 3 <? n then module 3 s else s.
Definition after (n : Z) (s : pca) : pca :=
  let s := if n <? 1 then module 1 s else s in let s := if n <? 2 then module 2 s else s in
  let s := if n <? 3 then module 3 s else s in if n <? 4 then module 4 s else s.
Lemma over_split n s : 0 <= n < 5 -> overflow s = after n (module n (before n s)).
Proof.
  intros N. assert (n = 0 \/ n = 1 \/ n = 2 \/ n = 3 \/ n = 4) as [-> | [-> | [-> | [-> | ->]]]] by lia;
  cbv beta iota zeta delta [before after overflow Z.ltb Z.compare Pos.compare Pos.compare_cont]; reflexivity.
Qed.
Lemma opt (b : bool) i n s : 0 <= n < 5 -> 0 <= i -> (b = true -> i <> n) -> eqm n s (if b then module i s else s) /\ same s (if b then module i s else s).
Proof.
  intros N I D. destruct b; [|repeat split]. split; [|apply module_same]. specialize (D eq_refl). apply (module_other i n s); lia.
Qed.
Lemma opt_e (b : bool) i n s : (b = true -> i <> n) -> wdte s = false \/ i <> 4 ->
  pos (if b then module i s else s) n = pos s n /\ neg (if b then module i s else s) n = neg s n.
Proof. intros D W. destruct b; [|auto]. apply module_other_edges; auto. Qed.
Lemma before_ok n s : 0 <= n < 5 -> eqm n s (before n s) /\ same s (before n s) /\ pos (before n s) n = pos s n /\ neg (before n s) n = neg s n.
Proof.
  intros N. unfold before. cbv zeta. set (s0 := set_ccon _ s).
  assert (E0 : eqm n s s0) by (repeat split; unfold flag, s0; cbn; apply lor80; lia).
  assert (S0 : same s s0) by repeat split.
  set (s1 := if 0 <? n then module 0 s0 else s0). set (s2 := if 1 <? n then module 1 s1 else s1).
  set (s3 := if 2 <? n then module 2 s2 else s2).
  destruct (opt (0 <? n) 0 n s0 N ltac:(lia) ltac:(lia)) as (E1 & S1). destruct (opt (1 <? n) 1 n s1 N ltac:(lia) ltac:(lia)) as (E2 & S2).
  destruct (opt (2 <? n) 2 n s2 N ltac:(lia) ltac:(lia)) as (E3 & S3). destruct (opt (3 <? n) 3 n s3 N ltac:(lia) ltac:(lia)) as (E4 & S4).
  destruct (opt_e (0 <? n) 0 n s0 ltac:(lia) ltac:(lia)) as (P1 & N1). destruct (opt_e (1 <? n) 1 n s1 ltac:(lia) ltac:(lia)) as (P2 & N2).
  destruct (opt_e (2 <? n) 2 n s2 ltac:(lia) ltac:(lia)) as (P3 & N3). destruct (opt_e (3 <? n) 3 n s3 ltac:(lia) ltac:(lia)) as (P4 & N4).
  split; [|split; [|split]].
  - eapply eqm_trans; [|exact E4]. eapply eqm_trans; [|exact E3]. eapply eqm_trans; [|exact E2]. eapply eqm_trans; [|exact E1]. exact E0.
  - eapply same_trans; [|exact S4]. eapply same_trans; [|exact S3]. eapply same_trans; [|exact S2]. eapply same_trans; [|exact S1]. exact S0.
  - exact (eq_trans P4 (eq_trans P3 (eq_trans P2 P1))).
  - exact (eq_trans N4 (eq_trans N3 (eq_trans N2 N1))).
Qed.
Lemma after_ok n s : 0 <= n < 5 -> eqm n s (after n s) /\ (cond s n -> pos (after n s) n = pos s n /\ neg (after n s) n = neg s n).
Proof.
  intros N. unfold after. cbv zeta. set (s1 := if n <? 1 then module 1 s else s). set (s2 := if n <? 2 then module 2 s1 else s1).
  set (s3 := if n <? 3 then module 3 s2 else s2).
  destruct (opt (n <? 1) 1 n s N ltac:(lia) ltac:(lia)) as (E1 & S1). destruct (opt (n <? 2) 2 n s1 N ltac:(lia) ltac:(lia)) as (E2 & S2).
  destruct (opt (n <? 3) 3 n s2 N ltac:(lia) ltac:(lia)) as (E3 & S3). destruct (opt (n <? 4) 4 n s3 N ltac:(lia) ltac:(lia)) as (E4 & S4).
  split.
  - eapply eqm_trans; [|exact E4]. eapply eqm_trans; [|exact E3]. eapply eqm_trans; [|exact E2]. exact E1.
  - intros C. destruct (opt_e (n <? 1) 1 n s ltac:(lia) ltac:(lia)) as (P1 & N1). destruct (opt_e (n <? 2) 2 n s1 ltac:(lia) ltac:(lia)) as (P2 & N2).
    destruct (opt_e (n <? 3) 3 n s2 ltac:(lia) ltac:(lia)) as (P3 & N3).
    assert (X : pos (if n <? 4 then module 4 s3 else s3) n = pos s3 n /\ neg (if n <? 4 then module 4 s3 else s3) n = neg s3 n).
    { destruct C as [-> | W]; [split; reflexivity|]. apply opt_e; [lia|]. left.
      destruct S1 as (_ & _ & _ & _ & _ & _ & W1 & _), S2 as (_ & _ & _ & _ & _ & _ & W2 & _), S3 as (_ & _ & _ & _ & _ & _ & W3 & _).
      fold s1 in W1. fold s2 in W2. fold s3 in W3. congruence. }
    destruct X as (P4 & N4). split; [exact (eq_trans P4 (eq_trans P3 (eq_trans P2 P1)))|exact (eq_trans N4 (eq_trans N3 (eq_trans N2 N1)))].
Qed.
Lemma over_self n s : 0 <= n < 5 -> cl s = 0 -> ch s = 0 ->
  let t := overflow s in
  capl t n = (if capt s n then 0 else capl s n) /\ caph t n = (if capt s n then 0 else caph s n) /\
  flag t n = (flag s n || capt s n || (z_ s n && negb (dog s n))) /\
  pin t n = (xorb (pin s n) (z_ s n && negb (dog s n) && TOG s n) || (ECOM s n && PWM s n && negb (z_ s n && dog s n))) /\
  (cond s n -> neg t n = (neg s n && negb (z_ s n && dog s n)) /\
  pos t n = (pos s n && negb (capt s n) && negb (z_ s n && dog s n))).
Proof.
  intros N C H. cbv zeta. rewrite (over_split n s N). remember (before n s) as b eqn:Eb.
  destruct (before_ok n s N) as ((A1 & A2 & A3 & A4) & (B1 & B2 & _ & B4 & _ & _ & B7 & _) & A5 & A6). rewrite <- Eb in *.
  destruct (module_self n b ltac:(lia) ltac:(congruence) ltac:(congruence)) as (D1 & D2 & D3 & D4 & D5 & D6).
  destruct (after_ok n (module n b) N) as ((F1 & F2 & F3 & F4) & F5).
  assert (K : capt b n = capt s n) by (unfold capt, CAPP, CAPN; rewrite B4, A5, A6; reflexivity).
  assert (Z : z_ b n = z_ s n) by (unfold z_, ECOM; rewrite K, B4, A1, A2; reflexivity).
  assert (G : dog b n = dog s n) by (unfold dog; rewrite B7; reflexivity).
  unfold TOG, PWM, ECOM in *. rewrite K, Z, G, ?A1, ?A2, ?A3, ?A4, ?A5, ?A6, ?B4 in *.
  rewrite F1, F2, F3, F4. split; [exact D1|]. split; [exact D2|]. split; [exact D3|]. split; [exact D4|].
  intros CD. destruct F5 as (F5 & F6).
  { destruct CD as [-> | W]; [left; reflexivity|right]. destruct (module_same n b) as (_ & _ & _ & _ & _ & _ & W7 & _). congruence. }
  rewrite F5, F6. auto.
Qed.

(** ** one pulse *)
Definition ready (s : pca) : pca := set_ch (u8 (ch s + 1)) (set_capl (fun i => if (0 <=? i) && (i <? 5) && bit (ccapm s i) 0x02 then caph s i else capl s i) (set_cl 0 s)).
Lemma count1_eq s : wf s -> count1 s = if cl s =? 255 then (if ch s =? 255 then overflow (ready s) else ready s) else set_cl (cl s + 1) s.
Proof.
  intros (C & H & _). assert (Q : u8 (cl s + 1) = if cl s =? 255 then 0 else cl s + 1) by (unfold u8; destruct (cl s =? 255) eqn:E; lia).
  unfold count1. cbv zeta. cbn [cl ch set_cl set_ch set_capl ccapm caph capl].
  rewrite Q. destruct (cl s =? 255) eqn:E; [|replace (cl s + 1 =? 0) with false by lia; reflexivity].
  change (0 =? 0) with true. cbv iota. fold (ready s).
  replace (u8 (ch s + 1) =? 0) with (ch s =? 255) by (unfold u8; lia). reflexivity.
Qed.
Lemma c255 s : wf s -> (count s = 65535 <-> cl s = 255 /\ ch s = 255).
Proof. intros (C & H & _). unfold count. lia. Qed.
(** the registers a pulse leaves *)
Definition kept (s t : pca) : Prop := ccapm t = ccapm s /\ wdte t = wdte s /\ modes t = modes s /\ clk t = clk s /\ cidl t = cidl s /\ cr t = cr s.
Lemma pulse_kept s : wf s -> kept s (count1 s).
Proof.
  intros W. rewrite count1_eq by exact W. destruct (cl s =? 255); [|repeat split]. destruct (ch s =? 255); [|repeat split].
  destruct (over_same (ready s)) as (_ & _ & ? & ? & ? & ? & ? & ?). repeat split; auto.
Qed.
Lemma pulse_nowrap n s : wf s -> 0 <= n < 5 -> count s <> 65535 -> let t := count1 s in
  capl t n = (if PWM s n && (cl s =? 255) then caph s n else capl s n) /\ caph t n = caph s n /\ ccon t = ccon s /\ p1 t = p1 s /\
  pos t = pos s /\ neg t = neg s.
Proof.
  intros W N D. cbv zeta. rewrite c255 in D by exact W. rewrite count1_eq by exact W. unfold PWM.
  destruct (cl s =? 255) eqn:E; [|rewrite andb_false_r; repeat split].
  replace (ch s =? 255) with false by lia. unfold ready. cbn. bits.
  replace ((0 <=? n) && (n <? 5)) with true by lia. rewrite andb_true_r. repeat split.
Qed.
Definition reload (s : pca) (n : Z) : Z := if PWM s n then caph s n else capl s n.
Definition zz (s : pca) (n : Z) : bool := ECOM s n && (capt s n || ((reload s n =? 0) && (caph s n =? 0))).
Lemma pulse_wrap n s : wf s -> 0 <= n < 5 -> count s = 65535 -> let t := count1 s in
  capl t n = (if capt s n then 0 else reload s n) /\ caph t n = (if capt s n then 0 else caph s n) /\
  flag t n = (flag s n || capt s n || (zz s n && negb (dog s n))) /\
  pin t n = (xorb (pin s n) (zz s n && negb (dog s n) && TOG s n) || (ECOM s n && PWM s n && negb (zz s n && dog s n))) /\
  (cond s n -> neg t n = (neg s n && negb (zz s n && dog s n)) /\
  pos t n = (pos s n && negb (capt s n) && negb (zz s n && dog s n))) /\ Z.testbit (ccon t) 7 = true.
Proof.
  intros W N D. cbv zeta. rewrite c255 in D by exact W. destruct D as (D & F). rewrite count1_eq by exact W. rewrite D, F. cbn [Z.eqb]. 
  change (255 =? 255) with true. cbv iota.
  destruct (over_self n (ready s) N) as (A1 & A2 & A3 & A4 & A5); [reflexivity|unfold ready; cbn; rewrite F; reflexivity|].
  assert (R : capl (ready s) n = reload s n).
  { unfold ready, reload, PWM. cbn. bits. replace ((0 <=? n) && (n <? 5)) with true by lia. reflexivity. }
  unfold z_ in *. rewrite R in *. fold (zz s n) in *.
  change (capt (ready s) n) with (capt s n) in *. change (dog (ready s) n) with (dog s n) in *. change (caph (ready s) n) with (caph s n) in *.
  change (flag (ready s) n) with (flag s n) in *. change (pin (ready s) n) with (pin s n) in *. change (TOG (ready s) n) with (TOG s n) in *.
  change (PWM (ready s) n) with (PWM s n) in *. change (ECOM (ready s) n) with (ECOM s n) in *. change (neg (ready s) n) with (neg s n) in *.
  change (pos (ready s) n) with (pos s n) in *. change (cond (ready s) n) with (cond s n) in *. fold (zz s n) in *.
  split; [exact A1|]. split; [exact A2|]. split; [exact A3|]. split; [exact A4|]. split; [exact A5|]. apply over_cf.
Qed.
Lemma pulse_count s : wf s -> count (count1 s) = (count s + 1) mod 65536.
Proof.
  intros W. rewrite count1_eq by exact W. destruct W as (C & H & _). unfold count. destruct (cl s =? 255) eqn:E; [|cbn [cl ch set_cl ecis t0s]; lia].
  destruct (ch s =? 255) eqn:F.
  - destruct (over_same (ready s)) as (-> & -> & _). unfold ready, u8. cbn [cl ch set_cl set_ch set_capl ecis t0s] in *. lia.
  - unfold ready, u8. cbn [cl ch set_cl set_ch set_capl ecis t0s] in *. lia.
Qed.
Lemma pulse_wf s : wf s -> wf (count1 s).
Proof.
  intros W. pose proof W as (C & H & T & E & K). 
  assert (B : 0 <= cl (count1 s) < 256 /\ 0 <= ch (count1 s) < 256 /\ 0 <= t0s (count1 s) /\ 0 <= ecis (count1 s)).
  { rewrite count1_eq by exact W. destruct (cl s =? 255) eqn:X; [|cbn [cl ch set_cl ecis t0s]; lia]. destruct (ch s =? 255) eqn:Y.
    - destruct (over_same (ready s)) as (-> & -> & _). assert (ED := over_edges (ready s)). unfold edges in ED.
      change (t0s (ready s)) with (t0s s) in ED. change (ecis (ready s)) with (ecis s) in ED. revert ED. generalize (t0s (overflow (ready s))) (ecis (overflow (ready s))). intros a b ED. unfold ready, u8. cbn [cl ch set_cl set_ch set_capl ecis t0s] in *. lia.
    - unfold ready, u8. cbn [cl ch set_cl set_ch set_capl ecis t0s] in *. lia. }
  unfold wf. split; [lia|]. split; [lia|]. split; [lia|]. split; [lia|]. intros n N.
  specialize (K n N). destruct (Z.eq_dec (count s) 65535) as [Q|Q].
  - destruct (pulse_wrap n s W N Q) as (-> & -> & _). unfold reload. destruct (capt s n), (PWM s n); lia.
  - destruct (pulse_nowrap n s W N Q) as (-> & -> & _). destruct (PWM s n && (cl s =? 255)); lia.
Qed.

(** ** induction over histories *)
Lemma iter_S N s : Nat.iter (S N) count1 s = count1 (Nat.iter N count1 s). Proof. reflexivity. Qed.
Lemma iter_wf N s : wf s -> wf (Nat.iter N count1 s) /\ count (Nat.iter N count1 s) = (count s + Z.of_nat N) mod 65536.
Proof.
  intros W. induction N as [|N [IW IC]].
  - split; [exact W|]. change (Nat.iter 0 count1 s) with s. destruct W as (C & H & _). unfold count. lia.
  - rewrite iter_S. split; [apply pulse_wf, IW|]. rewrite pulse_count, IC by exact IW. lia.
Qed.
  Lemma pulse_pos e s : wf s -> okev e -> 0 <= pulse e (clock_of s).
  Proof.
    intros (_ & _ & T & E & _) O. destruct e; cbn [pulse]; try lia. destruct (on _ && _); [|lia]. cbn in O. unfold clock_of. cbn [src pend].
    destruct (clk s =? 0) eqn:A0; [lia|]. destruct (clk s =? 2); [lia|]. destruct (clk s =? 4), (clk s =? 6); cbn; lia.
  Qed.
  (** a tick is a number of pulses, then perhaps an update of the counts of edges *)
  Lemma tick_form c i s : wf s -> 0 <= c -> exists a b, 0 <= a /\ 0 <= b /\
    event (Tick c i) s = set_edges a b (Nat.iter (Z.to_nat (pulse (Tick c i) (clock_of s))) count1 s).
  Proof.
    intros W C. pose proof W as (_ & _ & T & E & _). assert (ETA : forall u, u = set_edges (t0s u) (ecis u) u) by (intros []; reflexivity).
    assert (Z : forall n, exists a b, 0 <= a /\ 0 <= b /\ counter n s = set_edges a b (Nat.iter (Z.to_nat n) count1 s)).
    { intros n. destruct (iter_wf (Z.to_nat n) s W) as ((_ & _ & T' & E' & _) & _). unfold counter.
      exists (t0s (Nat.iter (Z.to_nat n) count1 s)), (ecis (Nat.iter (Z.to_nat n) count1 s)). auto. }
    assert (Z0 : exists a b, 0 <= a /\ 0 <= b /\ s = set_edges a b (Nat.iter (Z.to_nat 0) count1 s)).
    { exists (t0s s), (ecis s). auto. }
    cbn [event pulse]. unfold tick, clock_of. cbn [on src stops pend].
    destruct (cr s); cbn [negb andb]; [|exact Z0]. destruct (i && cidl s); cbn [negb]; [exact Z0|].
    destruct (clk s =? 0); [apply Z|]. destruct (clk s =? 2); [rewrite Z.mul_comm; apply Z|].
    destruct (clk s =? 4) eqn:C4.
    - cbn [orb]. destruct (iter_wf (Z.to_nat (t0s s)) s W) as ((_ & _ & T' & E' & _) & _). unfold counter.
      exists 0, (ecis (Nat.iter (Z.to_nat (t0s s)) count1 s)). split; [lia|]. split; [exact E'|reflexivity].
    - destruct (clk s =? 6) eqn:C6; cbn [orb]; [|exact Z0].
      destruct (iter_wf (Z.to_nat (ecis s)) s W) as ((_ & _ & T' & E' & _) & _). unfold counter.
      exists (t0s (Nat.iter (Z.to_nat (ecis s)) count1 s)), 0. split; [exact T'|]. split; [lia|reflexivity].
  Qed.
  Lemma edges_wf a b s : 0 <= a -> 0 <= b -> wf s -> wf (set_edges a b s) /\ count (set_edges a b s) = count s.
  Proof. intros X Y (C & H & T & E & K). split; [|reflexivity]. unfold wf. cbn. auto. Qed.
  Lemma iter_kept N s : wf s -> kept s (Nat.iter N count1 s).
  Proof.
    intros W. induction N as [|N IH]; [repeat split|]. rewrite iter_S. destruct (iter_wf N s W) as (IW & _).
    destruct IH as (?&?&?&?&?&?), (pulse_kept _ IW) as (?&?&?&?&?&?). unfold kept. repeat split; congruence.
  Qed.
  Lemma event_wf e s : wf s -> okev e -> wf (event e s).
  Proof.
    intros W O. destruct e.
    10:{ destruct (tick_form cycles idle s W O) as (a & b & X & Y & ->). apply edges_wf; auto. apply iter_wf, W. }
    all: destruct W as (C & H & T & E & K); unfold wf, event, port, reset in *; cbv zeta in *.
    all: repeat match goal with |- context [if ?b then _ else _] => destruct b eqn:? end.
    all: cbn [cl ch t0s ecis capl caph set_cl set_ch set_ccon set_capl set_caph set_modes set_p1 set_ccapm set_cmod set_cr set_edges set_cex] in *.
    all: unfold upd, u8; (split; [lia|]); (split; [lia|]); (split; [lia|]); (split; [lia|]); intros q Hq; specialize (K q Hq);
      repeat match goal with |- context [if ?b then _ else _] => destruct b eqn:? end; try lia.
  Qed.
  Lemma event_count e s : wf s -> free e -> count (event e s) = (count s + pulse e (clock_of s)) mod 65536.
  Proof.
    intros W (O & F). assert (R : 0 <= count s < 65536) by (destruct W as (C & H & _); unfold count; lia).
    destruct e; try contradiction.
    8:{ destruct (tick_form cycles idle s W O) as (a & b & X & Y & ->).
         change (count (set_edges a b ?u)) with (count u). rewrite (proj2 (iter_wf _ s W)). f_equal. pose proof (pulse_pos (Tick cycles idle) s W O). lia. }
    all: cbn [pulse]; rewrite Z.add_0_r, Z.mod_small by exact R; unfold event, port; cbv zeta;
      repeat match goal with |- context [if ?b then _ else _] => destruct b eqn:? end; reflexivity.
  Qed.
  Lemma port_clock o n s : clock_of (event (Port o n) s) = cstep (Port o n) (clock_of s).
  Proof.
    cbn [event cstep]. unfold port, clock_of. cbv zeta. rewrite !bit4. cbn [src pend on stops].
    destruct (Z.testbit o 2), (Z.testbit n 2); cbn;
    destruct (clk s =? 6) eqn:C6; cbn; destruct (clk s =? 4) eqn:C4; try lia; try reflexivity; f_equal; lia.
  Qed.
  Lemma event_clock e s : wf s -> okev e -> clock_of (event e s) = cstep e (clock_of s).
  Proof.
    intros W O. destruct e; try reflexivity.
    - cbn [event cstep]. unfold clock_of. rewrite !bit80, !bit40. cbn [src pend on stops]. destruct (Z.land v 6 =? clk s) eqn:E; cbn.
      + replace (Z.land v 6) with (clk s) by lia. reflexivity.
      + destruct (Z.land v 6 =? 4), (Z.land v 6 =? 6); reflexivity.
    - cbn [event cstep]. unfold clock_of. rewrite !bit40. reflexivity.
    - cbn [event cstep]. unfold clock_of. destruct (k =? 2) eqn:E.
      + replace k with 2 by lia. reflexivity.
      + destruct k as [|[[]|[]|]|]; try lia; reflexivity.
    - cbn [event cstep]. unfold clock_of. destruct (Z.land v 255 =? ccapm s i); reflexivity.
    - assert (KK : forall N, clk (Nat.iter N count1 s) = clk s /\ cidl (Nat.iter N count1 s) = cidl s /\ cr (Nat.iter N count1 s) = cr s).
      { intros N. destruct (iter_kept N s W) as (?&?&?&?&?&?). auto. }
      cbn [event cstep]. unfold tick, clock_of, counter. cbn [on src stops pend].
      destruct (cr s) eqn:R; cbn [negb andb]; [|rewrite R; reflexivity]. destruct (idle && cidl s) eqn:I; cbn [negb]; [rewrite R; reflexivity|].
      destruct (clk s =? 0) eqn:C0; [destruct (KK (Z.to_nat cycles)) as (-> & -> & ->); replace (clk s) with 0 by lia; reflexivity|].
      destruct (clk s =? 2) eqn:C2; [destruct (KK (Z.to_nat (cycles * 3))) as (-> & -> & ->); replace (clk s) with 2 by lia; reflexivity|].
      destruct (clk s =? 4) eqn:C4; [destruct (KK (Z.to_nat (t0s s))) as (K1 & K2 & K3); cbn [cr clk cidl t0s ecis set_edges]; rewrite K1, K2, K3, C4; replace (clk s) with 4 by lia; reflexivity|].
      destruct (clk s =? 6) eqn:C6; [destruct (KK (Z.to_nat (ecis s))) as (K1 & K2 & K3); cbn [cr clk cidl t0s ecis set_edges]; rewrite K1, K2, K3, C4, C6; replace (clk s) with 6 by lia; reflexivity|].
      rewrite C4, C6, R. reflexivity.
    - apply port_clock.
    - cbn [event cstep]. unfold clock_of. cbn. destruct (clk s =? 4); reflexivity.
    - cbn [event cstep]. unfold clock_of, reset. cbn. destruct (clk s =? 4), (clk s =? 6); reflexivity.
  Qed.
Section hist.
  Variables (P : Z -> pca -> Prop) (A : ev -> Prop).
  Hypothesis A_free : forall e, A e -> free e.
  Hypothesis P_nowrap : forall k s, wf s -> P k s -> count s <> 65535 -> P k (count1 s).
  Hypothesis P_wrap : forall k s, wf s -> P k s -> count s = 65535 -> P (k + 1) (count1 s).
  Hypothesis P_edges : forall k s a b, P k s -> P k (set_edges a b s).
  Hypothesis P_event : forall k e s, wf s -> A e -> (forall c i, e <> Tick c i) -> P k s -> P k (event e s).
  Lemma iter_ind N s k : wf s -> P k s -> P (k + (count s + Z.of_nat N) / 65536) (Nat.iter N count1 s).
  Proof.
    clear P_edges P_event A_free A. intros W H. induction N as [|N IH].
    - change (Nat.iter 0 count1 s) with s. replace (k + _) with k; [exact H|]. destruct W as (C & H' & _). unfold count. lia.
    - rewrite iter_S. destruct (iter_wf N s W) as (IW & IC). destruct (Z.eq_dec (count (Nat.iter N count1 s)) 65535) as [Q|Q].
      + apply P_wrap in IH; auto. replace (k + (count s + Z.of_nat (S N)) / 65536) with (k + (count s + Z.of_nat N) / 65536 + 1); [exact IH|]. lia.
      + apply P_nowrap in IH; auto. replace (k + (count s + Z.of_nat (S N)) / 65536) with (k + (count s + Z.of_nat N) / 65536); [exact IH|]. lia.
  Qed.
  Lemma hist_ind l : forall s k, wf s -> Forall A l -> P k s -> P (k + wraps l s) (run l s).
  Proof.
    induction l as [|e l IH]; intros s k W F H; cbn [run].
    - unfold wraps. cbn [pulses]. replace (k + _) with k; [exact H|]. destruct W as (C & H' & _). unfold count. lia.
    - inversion_clear F as [|? ? Ae F']. pose proof (A_free e Ae) as Fe. pose proof (proj1 Fe) as Oe.
      assert (X : P (k + (count s + pulse e (clock_of s)) / 65536) (event e s)).
      { assert (NT : (forall c i, e <> Tick c i) -> P (k + (count s + pulse e (clock_of s)) / 65536) (event e s)).
        { intros NT. replace (pulse e (clock_of s)) with 0 by (destruct e; try reflexivity; destruct (NT cycles idle eq_refl)).
          replace (k + _) with k; [apply P_event; auto|]. destruct W as (C & H' & _). unfold count. lia. }
        destruct e; try (apply NT; congruence).
        destruct (tick_form cycles idle s W Oe) as (a & b & Xa & Yb & ->). apply P_edges.
        pose proof (iter_ind (Z.to_nat (pulse (Tick cycles idle) (clock_of s))) s k W H) as Q. rewrite Z2Nat.id in Q by (apply pulse_pos; auto). exact Q. }
      specialize (IH _ _ (event_wf e s W Oe) F' X). unfold wraps in *. rewrite event_count, event_clock in IH by auto. cbn [pulses].
      replace (k + (count s + (pulse e (clock_of s) + pulses l (cstep e (clock_of s)))) / 65536)
        with (k + (count s + pulse e (clock_of s)) / 65536 + ((count s + pulse e (clock_of s)) mod 65536 + pulses l (cstep e (clock_of s))) / 65536); [exact IH|].
      lia.
  Qed.
End hist.
Lemma run_wf l : forall s, wf s -> Forall okev l -> wf (run l s).
Proof. induction l as [|e l IH]; intros s W F; [exact W|]. inversion_clear F. apply IH; [apply event_wf; assumption|assumption]. Qed.
Lemma run_count l : forall s, wf s -> Forall free l -> count (run l s) = (count s + pulses l (clock_of s)) mod 65536.
Proof.
  induction l as [|e l IH]; intros s W F; cbn [run pulses].
  - destruct W as (C & H & _). unfold count. lia.
  - inversion_clear F as [|? ? Fe F']. pose proof (proj1 Fe). rewrite IH by (auto using event_wf). rewrite event_count, event_clock by auto.
    rewrite Z.add_mod_idemp_l by lia. f_equal. lia.
Qed.
