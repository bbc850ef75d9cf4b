From Verif Require Import Base SerModel SerSpec SerProofs SerProofs2 SerProofs3 SerProofs4 SerProofs5.

(** ** Parts of a tick that matter to the input *)
Lemma start_ins s : ins (start_rx s) = ins s \/ ins (start_rx s) = ins (proc_input s).
Proof.
  unfold start_rx. destruct (ren s && negb (receiving s)); [|left; reflexivity]. destruct (often s).
  - destruct (dev s); [left; destruct (avail s); reflexivity|right; destruct (avail (proc_input s)); reflexivity].
  - left. destruct (avail s); reflexivity.
Qed.
Lemma tick_in s k : inv s -> 0 <= k -> exists s1, (ins s1 = ins s \/ ins s1 = ins (proc_input s)) /\
  let s' := tick k s in reads s' = reads s /\
  ((rcvd s' = rcvd s /\ s_in s' = s_in s /\ ins s' = ins s1) \/ (exists c q, get_input s1 = Some (c, q) /\ rcvd s' = rcvd s ++ [c mod 256] /\ s_in s' = c mod 256 /\ ins s' = ins q)).
Proof.
  intros I K. unfold tick. destruct (cnt_ok s I) as (A1 & A2 & A3 & A4 & A5 & A6 & A7 & A8 & A9 & A10 & A11 & _). set (a := bit_cnt s) in *.
  destruct (sent_ok a A1) as (B1 & _ & _ & B4 & B5 & _). set (b := sent a) in *. apply rxs_t in B4. destruct B4 as (_ & B42 & B43 & B44 & _).
  pose proof (start_ins b) as C. destruct (start_rx_frame b) as (_ & _ & _ & C4 & C5 & C6). pose proof (start_ok b B1) as C7. set (c := start_rx b) in *.
  assert (CI : ins c = ins s \/ ins c = ins (proc_input s)).
  { assert (E : ins b = ins s) by congruence. destruct C as [C|C]; [left; congruence|right]. rewrite C. pose proof E as EE. apply ins_t in E. destruct E as (E1 & E2 & E3 & E4 & E5 & E6 & E7 & E8 & E9 & E10).
    unfold proc_input. rewrite E1, E2, E3, E4, E5, E7, E8, E10. destruct (avail s) eqn:A; [exact EE|]. destruct (negb (flow s) || able s); [|exact EE]. destruct (dev s); [exact EE|]. destruct (negb (skip_nl s =? 0) && (z =? skip_nl s)); unfold ins; cbn [set_inp input avail sending_nl skip_nl nl_idx nl flow able often dev]; congruence. }
  exists c. split; [exact CI|]. destruct (end_ok c C7) as (_ & _ & _ & D4 & D5). set (d := end_rx c) in *.
  pose proof (tick_tail k d) as (_ & _ & E3 & _ & _ & _ & _ & _ & _ & _ & E11 & E12 & E13 & _). cbv zeta in *. set (f := set_rx _ _ _ _ _ _) in *. split; [congruence|].
  destruct (receiving c && (bits c <=? rec_bit c)); [destruct (get_input c) as [[x q]|]|].
  - right. exists x, q. destruct D5 as (_ & F2 & F3 & F4 & _). split; [reflexivity|]. split; [congruence|]. split; congruence.
  - left. destruct D5 as (F1 & F2 & _). apply rxs_t in F1. destruct F1 as (_ & F12 & F13 & _). split; [congruence|]. split; congruence.
  - left. destruct D5 as (F1 & F2 & _). apply rxs_t in F1. destruct F1 as (_ & F12 & F13 & _). split; [congruence|]. split; congruence.
Qed.

(** ** The stream *)
Definition isb (c : Z) : Prop := 0 <= c < 256.
Record binv (s : st) : Prop := {
  b_in : avail s = true -> isb (input s); b_dev : Forall isb (dev s); b_nl : 0 <= nl s < 2 ^ 24;
  b_raw : nl_bytes (nl s) = [] -> sending_nl s = false /\ skip_nl s = 0;
  b_snl : sending_nl s = true -> avail s = true /\ 0 < nl_idx s < Z.of_nat (length (nl_bytes (nl s)));
  b_skip : avail s = true -> sending_nl s = false -> skip_nl s = 0 }.
Definition rest (s : st) (x : list Z) : list Z :=
  match nl_bytes (nl s) with
  | [] => (if avail s then [input s] else []) ++ dev s ++ x
  | nb =>
      if avail s then
        if sending_nl s then skipn (Z.to_nat (nl_idx s)) nb ++ translate (nl s) (skip_nl s) (dev s ++ x)
        else if is_nl (input s) then nb ++ translate (nl s) (opposite_nl (input s)) (dev s ++ x) else input s :: translate (nl s) 0 (dev s ++ x)
      else translate (nl s) (skip_nl s) (dev s ++ x)
  end.
Lemma binv_ins s s' : binv s -> ins s' = ins s -> binv s'.
Proof. intros [A B C D E F] H. apply ins_t in H. destruct H as (H1 & H2 & H3 & H4 & H5 & H6 & H7 & H8 & H9 & H10). constructor; rewrite ?H1, ?H2, ?H3, ?H4, ?H5, ?H6, ?H10; assumption. Qed.
Lemma rest_ins s s' x : ins s' = ins s -> rest s' x = rest s x.
Proof. intros H. apply ins_t in H. destruct H as (H1 & H2 & H3 & H4 & H5 & H6 & H7 & H8 & H9 & H10). unfold rest. rewrite H1, H2, H3, H4, H5, H6, H10. reflexivity. Qed.
Lemma proc_nl s : nl (proc_input s) = nl s.
Proof. unfold proc_input. destruct (avail s); [reflexivity|]. destruct (negb (flow s) || able s); [|reflexivity]. destruct (dev s); [reflexivity|]. destruct (negb (skip_nl s =? 0) && (z =? skip_nl s)); reflexivity. Qed.
Ltac bi := constructor; cbn [set_inp input avail sending_nl skip_nl nl_idx nl dev]; first [assumption|intros; discriminate|intros; contradiction|intros; assumption|intros; congruence
  |let X := fresh in intros X; split; [assumption|lia]|intros; reflexivity|match goal with H : _ -> _ /\ _ |- _ => intros; split; [apply H; assumption|reflexivity] end].
Lemma proc_stream s : binv s -> binv (proc_input s) /\ forall x, rest (proc_input s) x = rest s x.
Proof.
  intros B. pose proof B as [B1 B2 B3 B4 B5 B6]. unfold proc_input. destruct (avail s) eqn:A; [split; [exact B|reflexivity]|]. destruct (negb (flow s) || able s); [|split; [exact B|reflexivity]]. destruct (dev s) as [|c d] eqn:D; [split; [exact B|reflexivity]|]. inversion B2; subst.
  assert (SN : sending_nl s = false) by (destruct (sending_nl s); [destruct (B5 eq_refl); discriminate|reflexivity]).
  destruct (negb (skip_nl s =? 0) && (c =? skip_nl s)) eqn:E.
  - split; [bi|].
    intros x. unfold rest. cbn [set_inp input avail sending_nl skip_nl nl_idx nl dev]. rewrite A, D. destruct (nl_bytes (nl s)) eqn:N.
    + destruct (B4 eq_refl) as [_ X]. rewrite X in E. discriminate.
    + cbn [app translate]. rewrite E. reflexivity.
  - split; [bi|].
    intros x. unfold rest. cbn [set_inp input avail sending_nl skip_nl nl_idx nl dev]. rewrite A, D, SN. destruct (nl_bytes (nl s)) eqn:N; [reflexivity|]. cbn [app translate]. rewrite E. unfold is_nl. destruct ((c =? 10) || (c =? 13)) eqn:Q; [|reflexivity]. rewrite N. f_equal. f_equal. unfold opposite_nl. destruct (c =? 10) eqn:X; [reflexivity|]. cbn [orb] in Q. rewrite Q. reflexivity.
Qed.
Lemma nb_length v : (length (nl_bytes v) <= 3)%nat.
Proof. unfold nl_bytes. destruct (_ =? 0); [cbn; lia|]. destruct (_ =? 0); [cbn; lia|]. destruct (_ =? 0); cbn; lia. Qed.
Lemma nb_nth s i : 0 <= nl s < 2 ^ 24 -> 0 <= i < Z.of_nat (length (nl_bytes (nl s))) ->
  exists t, skipn (Z.to_nat i) (nl_bytes (nl s)) = nl_byte s i :: t /\ (nl_byte s (i + 1) = 0 -> t = []) /\ (nl_byte s (i + 1) <> 0 -> i + 1 < Z.of_nat (length (nl_bytes (nl s))) /\ t = skipn (Z.to_nat (i + 1)) (nl_bytes (nl s))).
Proof.
  intros V L. assert (Z3 : nl_byte s 3 = 0) by (unfold nl_byte; rewrite Z.shiftr_div_pow2 by lia; rewrite Z.div_small by lia; reflexivity).
  change (nl_bytes (nl s)) with (if nl_byte s 0 =? 0 then [] else if nl_byte s 1 =? 0 then [nl_byte s 0] else if nl_byte s 2 =? 0 then [nl_byte s 0; nl_byte s 1] else [nl_byte s 0; nl_byte s 1; nl_byte s 2]) in *.
  destruct (Z.eqb_spec (nl_byte s 0) 0) as [E0|E0]; [cbn [length] in L; lia|]. destruct (Z.eqb_spec (nl_byte s 1) 0) as [E1|E1]; [|destruct (Z.eqb_spec (nl_byte s 2) 0) as [E2|E2]]; cbn [length] in *.
  - assert (i = 0) by lia. subst. exists []. split; [reflexivity|]. split; [reflexivity|]. intros X. contradiction X.
  - assert (i = 0 \/ i = 1) as [->| ->] by lia.
    + exists [nl_byte s 1]. split; [reflexivity|]. split; [intros X; contradiction E1|]. intros _. split; [lia|reflexivity].
    + exists []. split; [reflexivity|]. split; [reflexivity|]. intros X. contradiction X.
  - assert (i = 0 \/ i = 1 \/ i = 2) as [->|[->| ->]] by lia.
    + exists [nl_byte s 1; nl_byte s 2]. split; [reflexivity|]. split; [intros X; contradiction E1|]. intros _. split; [lia|reflexivity].
    + exists [nl_byte s 2]. split; [reflexivity|]. split; [intros X; contradiction E2|]. intros _. split; [lia|reflexivity].
    + exists []. split; [reflexivity|]. split; [reflexivity|]. intros X. contradiction X.
Qed.
Lemma nb_zero s : (nl_byte s 0 =? 0) = true <-> nl_bytes (nl s) = [].
Proof.
  change (nl_bytes (nl s)) with (if nl_byte s 0 =? 0 then [] else if nl_byte s 1 =? 0 then [nl_byte s 0] else if nl_byte s 2 =? 0 then [nl_byte s 0; nl_byte s 1] else [nl_byte s 0; nl_byte s 1; nl_byte s 2]).
  destruct (nl_byte s 0 =? 0), (nl_byte s 1 =? 0), (nl_byte s 2 =? 0); split; intros H; try reflexivity; discriminate.
Qed.
Lemma send_stream s q v : 0 <= nl s < 2 ^ 24 -> (avail s = true -> isb (input s)) -> Forall isb (dev s) -> nl_bytes (nl s) <> [] -> avail s = true -> sending_nl s = true -> 0 <= nl_idx s < Z.of_nat (length (nl_bytes (nl s))) -> send_nl s = (v, q) ->
  isb v /\ binv q /\ forall x, skipn (Z.to_nat (nl_idx s)) (nl_bytes (nl s)) ++ translate (nl s) (skip_nl s) (dev s ++ x) = v :: rest q x.
Proof.
  intros V IB DB NE A SN IX H. unfold send_nl in H. destruct (nb_nth s (nl_idx s) V IX) as (t & T1 & T2 & T3). destruct (Z.eqb_spec (nl_byte s (nl_idx s + 1)) 0) as [E|E]; injection H as <- <-.
  - split; [apply (Z.mod_pos_bound _ 256); lia|]. split; [bi|].
    intros x. rewrite T1, (T2 E). unfold rest. cbn [set_inp input avail sending_nl skip_nl nl_idx nl dev]. destruct (nl_bytes (nl s)); [contradiction NE; reflexivity|reflexivity].
  - destruct (T3 E) as [T4 T5]. split; [apply (Z.mod_pos_bound _ 256); lia|]. split; [bi|].
    intros x. rewrite T1, T5. unfold rest. cbn [set_inp input avail sending_nl skip_nl nl_idx nl dev]. rewrite A. destruct (nl_bytes (nl s)); [contradiction NE; reflexivity|reflexivity].
Qed.
Lemma get_stream s c q : binv s -> get_input s = Some (c, q) -> isb c /\ binv q /\ nl q = nl s /\ forall x, rest s x = c :: rest q x.
Proof.
  intros B. pose proof B as [B1 B2 B3 B4 B5 B6]. unfold get_input. destruct (avail s) eqn:A; [|discriminate]. cbn [negb]. pose proof (nb_zero s) as NZ. destruct (nl_byte s 0 =? 0).
  - destruct NZ as [NZ _]. specialize (NZ eq_refl). intros H. injection H as <- <-. destruct (B4 NZ) as [C1 C2]. split; [exact (B1 eq_refl)|]. split; [bi|]. split; [reflexivity|].
    intros x. unfold rest. cbn [set_inp input avail sending_nl skip_nl nl_idx nl dev]. rewrite NZ, A. reflexivity.
  - assert (NE : nl_bytes (nl s) <> []) by (intros X; apply NZ in X; discriminate). assert (LN : 0 < Z.of_nat (length (nl_bytes (nl s)))) by (destruct (nl_bytes (nl s)); [contradiction NE; reflexivity|cbn [length]; lia]).
    assert (RS : forall x, rest s x = if sending_nl s then skipn (Z.to_nat (nl_idx s)) (nl_bytes (nl s)) ++ translate (nl s) (skip_nl s) (dev s ++ x) else if is_nl (input s) then nl_bytes (nl s) ++ translate (nl s) (opposite_nl (input s)) (dev s ++ x) else input s :: translate (nl s) 0 (dev s ++ x)) by (intros x; unfold rest; rewrite A; destruct (nl_bytes (nl s)); [contradiction NE; reflexivity|reflexivity]).
    assert (QN : forall p, send_nl p = (c, q) -> nl q = nl p) by (intros p H; unfold send_nl in H; destruct (_ =? 0); injection H as _ <-; reflexivity).
    destruct (sending_nl s) eqn:SN; cbn [negb].
    + intros H. assert (H' : send_nl s = (c, q)) by congruence. destruct (B5 eq_refl) as [_ IX]. destruct (send_stream s q c B3 (fun _ => B1 eq_refl) B2 NE A SN ltac:(lia) H') as (S1 & S2 & S3). split; [exact S1|]. split; [exact S2|]. split; [apply QN, H'|]. intros x. rewrite RS. apply S3.
    + destruct (is_nl (input s)) eqn:N; cbn [negb].
      * intros H. set (p := set_inp (input s) true true (opposite_nl (input s)) 0 (able s) (dev s) s) in *. assert (H' : send_nl p = (c, q)) by congruence. destruct (send_stream p q c B3 B1 B2 NE eq_refl eq_refl) as (S1 & S2 & S3); [change (nl_idx p) with 0; change (nl p) with (nl s); lia|exact H'|].
        split; [exact S1|]. split; [exact S2|]. split; [apply (QN p), H'|]. intros x. rewrite RS. exact (S3 x).
      * intros H. injection H as <- <-. split; [exact (B1 eq_refl)|]. split; [bi|]. split; [reflexivity|].
        intros x. rewrite RS. unfold rest. cbn [set_inp input avail sending_nl skip_nl nl_idx nl dev]. rewrite (B6 eq_refl eq_refl). destruct (nl_bytes (nl s)); [contradiction NE; reflexivity|reflexivity].
Qed.
Lemma proc_ins s s' : ins s' = ins (proc_input s) -> binv s -> binv s' /\ nl s' = nl s /\ forall x, rest s' x = rest s x.
Proof. intros H B. destruct (proc_stream s B) as [P1 P2]. split; [exact (binv_ins _ _ P1 H)|]. split; [apply ins_t in H; destruct H as (_ & _ & _ & _ & _ & H & _); rewrite H; apply proc_nl|]. intros x. rewrite (rest_ins _ _ _ H). apply P2. Qed.
Lemma stream_step s o : inv s -> binv s -> proper o -> let s' := step s o in
  binv s' /\ nl s' = nl s /\ forall x, rcvd s' ++ rest s' x = rcvd s ++ rest s (arrived [o] ++ x).
Proof.
  intros I B Q. cbv zeta. assert (K : forall s', ins s' = ins s -> rcvd s' = rcvd s -> binv s' /\ nl s' = nl s /\ forall x, rcvd s' ++ rest s' x = rcvd s ++ rest s ([] ++ x)) by (intros s' A E; split; [exact (binv_ins _ _ B A)|]; split; [apply ins_t in A; apply A|intros x; rewrite E, (rest_ins _ _ _ A); reflexivity]).
  assert (SC : forall n, ins (write_scon n s) = ins s /\ rcvd (write_scon n s) = rcvd s) by (intros n; rewrite write_scon_eq; split; reflexivity).
  destruct o; cbn [arrived step].
  - destruct (tick_in s k I Q) as (s1 & H & _ & T). cbv zeta in T. assert (P1 : binv s1 /\ nl s1 = nl s /\ forall x, rest s1 x = rest s x) by (destruct H as [H|H]; [|exact (proc_ins _ _ H B)]; split; [exact (binv_ins _ _ B H)|]; split; [apply ins_t in H; apply H|intros x; apply rest_ins, H]).
    destruct P1 as (P1 & P2 & P3). destruct T as [(T1 & _ & T2)|(c & q & G & T1 & _ & T2)].
    + split; [exact (binv_ins _ _ P1 T2)|]. split; [apply ins_t in T2; destruct T2 as (_ & _ & _ & _ & _ & T2 & _); congruence|]. intros x. rewrite T1, (rest_ins _ _ _ T2), P3. reflexivity.
    + destruct (get_stream _ _ _ P1 G) as (G1 & G2 & G3 & G4). split; [exact (binv_ins _ _ G2 T2)|]. split; [apply ins_t in T2; destruct T2 as (_ & _ & _ & _ & _ & T2 & _); congruence|]. intros x. rewrite T1, (rest_ins _ _ _ T2), <- app_assoc, Z.mod_small by exact G1. cbn [app]. rewrite <- G4, P3. reflexivity.
  - apply K; reflexivity.
  - apply K; unfold t2_mode; destruct (t2b s); reflexivity.
  - apply K; reflexivity.
  - destruct B as [B1 B2 B3 B4 B5 B6]. split; [constructor; assumption|]. split; [reflexivity|]. intros x. unfold read_sbuf. cbn [log set_inp rcvd]. rewrite app_nil_r. reflexivity.
  - apply K; apply SC.
  - apply K; apply SC.
  - apply K; reflexivity.
  - destruct B as [B1 B2 B3 B4 B5 B6]. split; [constructor; try assumption; apply Forall_app; split; assumption|]. split; [reflexivity|]. intros x. unfold rest. cbn [set_inp input avail sending_nl skip_nl nl_idx nl dev rcvd]. rewrite app_nil_r, <- app_assoc. reflexivity.
  - destruct (proc_input_frame s) as (_ & _ & _ & R). apply rxs_t in R. destruct (dev s) eqn:D; [apply K; reflexivity|]. destruct (proc_stream s B) as [P1 P2]. split; [exact P1|]. split; [apply proc_nl|]. intros x. rewrite P2. destruct R as (_ & _ & R & _). rewrite R. reflexivity.
  - unfold cpu_reset. rewrite write_scon_eq. apply K; unfold t2_mode, write_pcon; destruct (t2b _); reflexivity.
Qed.
Lemma arrived_app a b : arrived (a ++ b) = arrived a ++ arrived b.
Proof. induction a as [|o a IH]; [reflexivity|]. destruct o; cbn [arrived app]; rewrite IH, ?app_assoc; reflexivity. Qed.
Lemma stream_run l : forall s, inv s -> binv s -> Forall proper l -> binv (run s l) /\ nl (run s l) = nl s /\ forall x, rcvd (run s l) ++ rest (run s l) x = rcvd s ++ rest s (arrived l ++ x).
Proof.
  induction l as [|a l IH]; intros s I B F; [split; [exact B|]; split; reflexivity|]. inversion F as [|? ? Q F']; subst. change (run s (a :: l)) with (run (step s a) l). destruct (stream_step s a I B Q) as (S1 & S2 & S3). destruct (IH (step s a) (inv_step _ _ I Q) S1 F') as (R1 & R2 & R3). split; [exact R1|]. split; [congruence|].
  intros x. rewrite R3, S3, app_assoc, <- arrived_app. reflexivity.
Qed.
Lemma power_ins s : 0 <= nl s < 2 ^ 24 -> binv (power_on s) /\ nl (power_on s) = nl s /\ rcvd (power_on s) = [] /\ avail (power_on s) = false /\ dev (power_on s) = [] /\ skip_nl (power_on s) = 0 /\ reads (power_on s) = [] /\ able (power_on s) = true /\ flow (power_on s) = flow s.
Proof.
  intros V. unfold power_on. set (p := mkSt _ _ _ _ _ _ _ _ _ _ _ _ _ _ _ _ _ _ _ _ _ _ _ _ _ _ _ _ _ _ _). assert (E : ins (cpu_reset p) = ins p /\ rcvd (cpu_reset p) = [] /\ reads (cpu_reset p) = []) by (unfold cpu_reset; rewrite write_scon_eq; unfold t2_mode, write_pcon; destruct (t2b _); repeat split).
  destruct E as (E1 & E2 & E3). split; [|apply ins_t in E1; destruct E1 as (E11 & E12 & E13 & E14 & E15 & E16 & E17 & E18 & E19 & E20); rewrite E12, E14, E16, E17, E18, E20; repeat split; assumption].
  apply (binv_ins p); [|exact E1]. constructor; cbn; try assumption; try constructor; try reflexivity; intros; discriminate.
Qed.
