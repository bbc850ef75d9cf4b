From Verif Require Import Base SerModel SerSpec SerProofs.

(** ** Raising a flag *)
Record raised (k : Z) (s s' : st) : Prop := {
  r_inv : inv s'; r_pcon : pcon s' = pcon s; r_mode : mode_of s' = mode_of s; r_t2 : t2b s' = t2b s;
  r_div : divby s' = rate (mode_of s) (Z.testbit (pcon s) 7);
  r_scon : forall j, 0 <= j < 8 -> Z.testbit (scon s') j = Z.testbit (scon s) j || (j =? k);
  r_txs : txs s' = txs s; r_rxs : rxs s' = rxs s; r_ins : ins s' = ins s }.
Lemma raise_ok k s : inv s -> 0 <= k < 4 -> raised k s (write_scon (with_bit (scon s) k true) s).
Proof.
  intros I K. pose proof (i_scon _ I) as C. assert (M : with_bit (scon s) k true / 64 = scon s / 64) by (apply with_bit_mode; lia).
  assert (I' : inv (write_scon (with_bit (scon s) k true) s)) by (apply inv_scon; [exact I|apply with_bit_range; lia]). rewrite write_scon_eq in *. constructor; try reflexivity; [exact I'|exact M| |].
  - cbn [set_ctl divby]. rewrite M, (i_smod _ I). reflexivity.
  - intros j J. cbn [set_ctl scon]. rewrite with_bit_test by lia. rewrite (Z.eqb_sym j k). destruct (k =? j); [rewrite orb_true_r; reflexivity|rewrite orb_false_r; reflexivity].
Qed.

(** ** The transmitter in a tick *)
Definition flags (s s' : st) (ti ri : bool) : Prop :=
  forall j, 0 <= j < 8 -> Z.testbit (scon s') j = Z.testbit (scon s) j || (j =? 1) && ti || (j =? 0) && ri.
Lemma flags_refl s s' : scon s' = scon s -> flags s s' false false.
Proof. intros E j J. rewrite E, !andb_false_r, !orb_false_r. reflexivity. Qed.
Lemma flags_trans s s1 s2 a b c d : flags s s1 a b -> flags s1 s2 c d -> flags s s2 (a || c) (b || d).
Proof. intros F G j J. rewrite G, F by exact J. destruct (Z.testbit (scon s) j), (j =? 1), (j =? 0), a, b, c, d; reflexivity. Qed.
(** configuration: what a flag does not change *)
Definition cfg (s : st) := (pcon s, mode_of s, t2b s).
Definition rate_in (s : st) : Prop := divby s = divd s. 
Record keeps (s s' : st) : Prop := { k_inv : inv s'; k_cfg : cfg s' = cfg s }.
Lemma ctl_inv s s' : inv s -> ctl s' = ctl s -> divby s' = divby s \/ divby s' = 16 -> 0 <= tr_t1 s' -> 0 <= tr_tick s' -> 0 <= rec_t1 s' -> 0 <= rec_tick s' -> inv s'.
Proof.
  intros [A1 A2 A3 A4 A5 A6 A7 A8 A9 A10] C D T1 T2 T3 T4. unfold ctl in C. assert (C1 : scon s' = scon s) by congruence. assert (C2 : pcon s' = pcon s) by congruence. assert (C3 : mode s' = mode s) by congruence. assert (C4 : ren s' = ren s) by congruence. assert (C5 : smod s' = smod s) by congruence. assert (C6 : bits s' = bits s) by congruence.
  constructor; try assumption; try (unfold mode_of in *; congruence). destruct D as [D|D]; rewrite D; [exact A6|auto].
Qed.
Lemma ctl_cfg s s' : ctl s' = ctl s -> cfg s' = cfg s.
Proof. intros C. unfold ctl in C. unfold cfg, mode_of. congruence. Qed.
Lemma ctl_scon s s' : ctl s' = ctl s -> scon s' = scon s.
Proof. intros C. unfold ctl in C. congruence. Qed.
Lemma txs_t s s' : txs s' = txs s -> sending s' = sending s /\ s_out s' = s_out s /\ outp s' = outp s /\ tr_bit s' = tr_bit s /\ tr_t1 s' = tr_t1 s /\ tr_tick s' = tr_tick s.
Proof. unfold txs. intros H. repeat split; congruence. Qed.
Lemma rxs_t s s' : rxs s' = rxs s -> receiving s' = receiving s /\ s_in s' = s_in s /\ rcvd s' = rcvd s /\ reads s' = reads s /\ rec_bit s' = rec_bit s /\ rec_t1 s' = rec_t1 s /\ rec_tick s' = rec_tick s.
Proof. unfold rxs. intros H. repeat split; congruence. Qed.
Lemma cnt_ok s : inv s -> let q := bit_cnt s in
  inv q /\ ctl q = ctl s /\ divby q = divd s /\ ins q = ins s /\
  sending q = sending s /\ s_out q = s_out s /\ outp q = outp s /\ receiving q = receiving s /\ s_in q = s_in s /\ rcvd q = rcvd s /\ reads q = reads s /\
  (sending s = true -> tr_bit q = (if tr_bit s <? bits s then Z.min (bits s) (tr_bit s + tsrc s / divd s) else tr_bit s) /\ tsrc q = tsrc s mod divd s) /\
  (receiving s = true -> rec_bit q = rec_bit s + rsrc s / divd s /\ rsrc q = rsrc s mod divd s).
Proof.
  intros I. cbv zeta. unfold bit_cnt. pose proof (divd_pos s I) as D.
  destruct (cnt_div_ok s) as (A1 & A2 & A3 & A4 & A5). set (a := cnt_div s) in *. apply txs_t in A3. destruct A3 as (A31 & A32 & A33 & A34 & A35 & A36). apply rxs_t in A4. destruct A4 as (A41 & A42 & A43 & A44 & A45 & A46 & A47).
  assert (AB : bits a = bits s) by (unfold ctl in A1; congruence). pose proof (by_overflow_ctl _ _ A1) as AO.
  pose proof I as [J1 J2 J3 J4 J5 J6 J7 J8 J9 J10].
  destruct (cnt_tx_frame a) as (B1 & B2 & B3 & B4 & B5 & B6 & B7). pose proof (cnt_tx_ok a ltac:(lia) ltac:(lia) ltac:(lia)) as B8. pose proof (cnt_tx_pos a ltac:(lia) ltac:(lia) ltac:(lia)) as (B9 & B10). set (b := cnt_tx a) in *. apply rxs_t in B3. destruct B3 as (B31 & B32 & B33 & B34 & B35 & B36 & B37). pose proof (by_overflow_ctl _ _ B1) as BO.
  destruct (cnt_rx_frame b) as (C1 & C2 & C3 & C4 & C5 & C6 & C7 & C8). pose proof (cnt_rx_ok b ltac:(lia) ltac:(lia) ltac:(lia)) as C9. pose proof (cnt_rx_pos b ltac:(lia) ltac:(lia) ltac:(lia)) as (C10 & C11). set (c := cnt_rx b) in *. apply txs_t in C3. destruct C3 as (C31 & C32 & C33 & C34 & C35 & C36). pose proof (by_overflow_ctl _ _ C1) as CO.
  assert (CT : ctl c = ctl s) by congruence. assert (DD : divby c = divd s) by congruence.
  split; [apply (ctl_inv s); try assumption; try lia; rewrite DD; unfold divd; destruct (t2b s); auto|].
  split; [exact CT|]. split; [exact DD|]. split; [congruence|]. split; [congruence|]. split; [congruence|]. split; [congruence|]. split; [congruence|]. split; [congruence|]. split; [congruence|]. split; [congruence|]. split.
  - intros S. specialize (B8 ltac:(congruence)). destruct B8 as [B81 B82]. rewrite C34, B81, A34, AB. assert (T : tsrc a = tsrc s) by (unfold tsrc; rewrite AO, A35, A36; reflexivity). rewrite T, A2 in *. split; [reflexivity|]. rewrite <- B82. unfold tsrc. rewrite CO, C35, C36. reflexivity.
  - intros S. specialize (C9 ltac:(congruence)). destruct C9 as [C91 C92]. assert (T : rsrc b = rsrc s) by (unfold rsrc; rewrite BO, AO, B36, B37, A46, A47; reflexivity). rewrite C91, C92, T, B2, A2, B35, A45. split; reflexivity.
Qed.
Lemma sent_ok s : inv s -> let q := sent s in let e := sending s && (bits s <=? tr_bit s) in
  inv q /\ cfg q = cfg s /\ flags s q e false /\ rxs q = rxs s /\ ins q = ins s /\
  sending q = (if e then false else sending s) /\ s_out q = s_out s /\ outp q = outp s ++ (if e then [s_out s] else []) /\
  divby q = (if e then rate (mode_of s) (Z.testbit (pcon s) 7) else divby s) /\ (e = false -> txs q = txs s).
Proof.
  intros I. cbv zeta. unfold sent. destruct (sending s && (bits s <=? tr_bit s)) eqn:E.
  - set (a := set_tx (s_out s) false (tr_bit s) (tr_t1 s) (tr_tick s) s). assert (IA : inv a) by (destruct I; constructor; assumption).
    pose proof (raise_ok 1 a IA ltac:(lia)) as [R1 R2 R3 R4 R5 R6 R7 R8 R9]. set (b := write_scon (with_bit (scon a) 1 true) a) in *. apply txs_t in R7. destruct R7 as (T1 & T2 & T3 & T4 & T5 & T6).
    set (c := log [s_out b] [] [] b).
    assert (RX : rxs c = rxs s) by (transitivity (rxs b); [|exact R8]; unfold rxs, c; cbn [log receiving s_in rcvd reads rec_bit rec_t1 rec_tick]; rewrite !app_nil_r; reflexivity).
    split; [destruct R1; constructor; assumption|]. split; [change ((pcon b, mode_of b, t2b b) = cfg s); rewrite R2, R3, R4; reflexivity|].
    split; [intros j J; change (Z.testbit (scon b) j = Z.testbit (scon s) j || (j =? 1) && true || (j =? 0) && false); rewrite R6 by exact J; change (scon a) with (scon s); rewrite andb_true_r, andb_false_r, orb_false_r; reflexivity|].
    split; [exact RX|]. split; [exact R9|]. split; [reflexivity|]. split; [exact T2|]. split; [change (outp b ++ [s_out b] = outp s ++ [s_out s]); rewrite T2, T3; reflexivity|]. split; [exact R5|discriminate].
  - rewrite app_nil_r. split; [exact I|]. split; [reflexivity|]. split; [apply flags_refl; reflexivity|]. repeat split.
Qed.
Lemma start_ok s : inv s -> inv (start_rx s).
Proof.
  intros I. destruct (start_rx_frame s) as (A1 & A2 & A3 & _). apply txs_t in A3. destruct A3 as (_ & _ & _ & _ & A5 & A6). apply (ctl_inv s); try assumption; [left; exact A2|rewrite A5; apply (i_trt1 _ I)|rewrite A6; apply (i_trtick _ I)| |]; unfold start_rx;
  destruct (ren s && negb (receiving s)); try (apply (i_rect1 _ I) || apply (i_rectick _ I)); set (q := if often s then _ else s);
  (assert (E : rxs q = rxs s) by (unfold q; destruct (often s); [|reflexivity]; destruct (dev s); [reflexivity|apply proc_input_frame])); apply rxs_t in E; destruct E as (_ & _ & _ & _ & _ & E1 & E2); destruct (avail q); cbn [set_rx rec_t1 rec_tick]; rewrite ?E1, ?E2; try lia; (apply (i_rect1 _ I) || apply (i_rectick _ I)).
Qed.
Lemma end_ok s : inv s -> let q := end_rx s in let e := receiving s && (bits s <=? rec_bit s) in
  inv q /\ cfg q = cfg s /\ txs q = txs s /\ reads q = reads s /\
  match (if e then get_input s else None) with
  | None => rxs q = rxs s /\ ins q = ins s /\ divby q = divby s /\ scon q = scon s
  | Some (c, s1) => receiving q = false /\ s_in q = c mod 256 /\ rcvd q = rcvd s ++ [c mod 256] /\ ins q = ins s1 /\ divby q = rate (mode_of s) (Z.testbit (pcon s) 7) /\ flags s q false true /\ rec_t1 q = rec_t1 s /\ rec_tick q = rec_tick s
  end.
Proof.
  intros I. cbv zeta. unfold end_rx. destruct (receiving s && (bits s <=? rec_bit s)) eqn:E; [|split; [exact I|]; repeat split]. destruct (get_input s) as [[c s1]|] eqn:G; [|split; [exact I|]; repeat split].
  destruct (get_input_frame _ _ _ G) as (A1 & A2 & A3 & A4). pose proof A3 as A3'. pose proof A4 as A4'. apply txs_t in A3'. destruct A3' as (_ & _ & _ & _ & A35 & A36). apply rxs_t in A4'. destruct A4' as (B1 & B2 & B3 & B4 & B5 & B6 & B7).
  assert (I1 : inv s1) by (apply (ctl_inv s); try assumption; [left; exact A2|rewrite A35; apply (i_trt1 _ I)|rewrite A36; apply (i_trtick _ I)|rewrite B6; apply (i_rect1 _ I)|rewrite B7; apply (i_rectick _ I)]).
  set (a := set_rx (c mod 256) true (rec_bit s1) (rec_t1 s1) (rec_tick s1) s1). assert (IA : inv a) by (destruct I1; constructor; assumption).
  pose proof (raise_ok 0 a IA ltac:(lia)) as [R1 R2 R3 R4 R5 R6 R7 R8 R9]. set (b := write_scon (with_bit (scon a) 0 true) a) in *. set (d := log [] [c mod 256] [] b).
  pose proof (ctl_cfg _ _ A1) as CF. pose proof (ctl_scon _ _ A1) as CS. change (mode_of a) with (mode_of s1) in *. change (pcon a) with (pcon s1) in *. change (t2b a) with (t2b s1) in *. change (scon a) with (scon s1) in *. unfold cfg in CF. assert (CP : pcon s1 = pcon s) by congruence. assert (CM : mode_of s1 = mode_of s) by congruence. assert (C2 : t2b s1 = t2b s) by congruence.
  apply rxs_t in R8. destruct R8 as (R81 & R82 & R83 & R84 & R85 & R86 & R87).
  split; [destruct R1; constructor; assumption|]. split; [change ((pcon b, mode_of b, t2b b) = cfg s); unfold cfg; congruence|].
  split; [change (txs d = txs s); rewrite <- A3; change (txs s1) with (txs a); rewrite <- R7; unfold txs, d; cbn [log sending s_out outp tr_bit tr_t1 tr_tick]; rewrite app_nil_r; reflexivity|].
  split; [change (reads b ++ [] = reads s); rewrite app_nil_r, R84; exact B4|].
  split; [reflexivity|]. split; [exact R82|]. split; [change (rcvd b ++ [c mod 256] = rcvd s ++ [c mod 256]); rewrite R83; change (rcvd a) with (rcvd s1); rewrite B3; reflexivity|]. split; [exact R9|]. split; [change (divby b = rate (mode_of s) (Z.testbit (pcon s) 7)); rewrite R5; congruence|].
  split; [intros j J; change (Z.testbit (scon b) j = Z.testbit (scon s) j || (j =? 1) && false || (j =? 0) && true); rewrite R6 by exact J; rewrite CS, andb_false_r, andb_true_r, orb_false_r; reflexivity|].
  split; [change (rec_t1 b = rec_t1 s); rewrite R86; exact B6|change (rec_tick b = rec_tick s); rewrite R87; exact B7].
Qed.
