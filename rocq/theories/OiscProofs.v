(** Proofs about the one instruction processors: MISC16 and the extended one. *)
From Verif Require Import Base OiscModel OiscSpec.

Definition abs (s : st) : mach := mkM (pc s) (ra s) (negb (rc s =? 0)) (rp s) (mem s).
Definition wf (s : st) : Prop := 0 <= pc s < 65536 /\ 0 <= ra s < 65536 /\ 0 <= rc s <= 1 /\ 0 <= rp s < 65536 /\ (forall a, 0 <= mem s a < 65536).

Lemma land_ffff x : Z.land x 0xffff = x mod 65536.
Proof. change 0xffff with (Z.ones 16). rewrite Z.land_ones by lia. reflexivity. Qed.
Lemma bit15 x : 0 <= x < 65536 -> Z.testbit x 15 = (32768 <=? x).
Proof.
  intros H. rewrite Z.testbit_odd, Z.shiftr_div_pow2 by lia. change (2 ^ 15) with 32768.
  assert (E : x / 32768 = 0 \/ x / 32768 = 1) by lia. destruct E as [E | E]; rewrite E; cbn; lia.
Qed.
Lemma land_8000 x : (Z.land x 0x8000 =? 0) = negb (Z.testbit x 15).
Proof.
  destruct (Z.testbit x 15) eqn:T; cbn [negb].
  - apply Z.eqb_neq. intros E. assert (F := f_equal (fun v => Z.testbit v 15) E). cbv beta in F. rewrite Z.land_spec, T in F. discriminate F.
  - apply Z.eqb_eq. apply Z.bits_inj'. intros n N. rewrite Z.land_spec, Z.bits_0. change 0x8000 with (2 ^ 15).
    destruct (Z.eq_dec n 15) as [-> | E]; [rewrite T; reflexivity|]. rewrite Z.pow2_bits_false by lia. apply andb_false_r.
Qed.
Lemma carry_out a b k : 0 <= a < 65536 -> 0 <= b < 65536 -> 0 <= k <= 1 ->
  (Z.land (Z.lor (Z.land a b) (Z.land (Z.lor a b) (Z.lnot (u16 (a + b + k))))) 0x8000 =? 0) = (a + b + k <? 65536).
Proof.
  intros HA HB HK. rewrite land_8000. repeat rewrite ?Z.lor_spec, ?Z.land_spec, ?Z.lnot_spec by lia. rewrite (bit15 a HA), (bit15 b HB), (bit15 (u16 _) (u16_range _)). unfold u16. lia.
Qed.
Lemma not16 v : 0 <= v < 65536 -> u16 (Z.lnot v) = 65535 - v.
Proof. unfold u16, Z.lnot. lia. Qed.
Lemma bitwise op a b : (forall x y n, Z.testbit (op x y) n = true -> Z.testbit x n = true \/ Z.testbit y n = true) -> 0 <= op a b ->
  0 <= a < 65536 -> 0 <= b < 65536 -> op a b < 65536.
Proof.
  intros O N HA HB. destruct (Z.lt_ge_cases (op a b) 65536) as [L | G]; [exact L|exfalso].
  assert (B : Z.testbit (op a b) (Z.log2 (op a b)) = true) by (apply Z.bit_log2; lia).
  assert (16 <= Z.log2 (op a b)) by (change 16 with (Z.log2 65536); apply Z.log2_le_mono, G).
  assert (LT : forall x, 0 <= x < 65536 -> Z.testbit x (Z.log2 (op a b)) = false).
  { intros x Hx. destruct (Z.eq_dec x 0) as [-> | X]; [apply Z.bits_0|]. apply Z.bits_above_log2; [lia|].
    apply Z.lt_le_trans with 16; [|assumption]. apply Z.log2_lt_pow2; lia. }
  destruct (O _ _ _ B) as [E | E]; rewrite LT in E by assumption; discriminate.
Qed.
Lemma lor_w a b : 0 <= a < 65536 -> 0 <= b < 65536 -> 0 <= Z.lor a b < 65536.
Proof. intros; split; [apply Z.lor_nonneg; lia|]. apply bitwise; try assumption; [|apply Z.lor_nonneg; lia]. intros x y n. rewrite Z.lor_spec. destruct (Z.testbit x n); auto. Qed.
Lemma land_w a b : 0 <= a < 65536 -> 0 <= b < 65536 -> 0 <= Z.land a b < 65536.
Proof. intros; split; [apply Z.land_nonneg; lia|]. apply bitwise; try assumption; [|apply Z.land_nonneg; lia]. intros x y n. rewrite Z.land_spec. destruct (Z.testbit x n); auto. Qed.
Lemma lxor_w a b : 0 <= a < 65536 -> 0 <= b < 65536 -> 0 <= Z.lxor a b < 65536.
Proof. intros; split; [apply Z.lxor_nonneg; lia|]. apply bitwise; try assumption; [|apply Z.lxor_nonneg; lia]. intros x y n. rewrite Z.lxor_spec. destruct (Z.testbit x n), (Z.testbit y n); auto. Qed.
Lemma lor_8000 x : 0 <= x < 32768 -> Z.lor x 0x8000 = x + 32768.
Proof.
  intros H. rewrite <- Z.lxor_lor; [rewrite <- Z.add_nocarry_lxor; [reflexivity|] |]; apply Z.bits_inj'; intros n N; rewrite Z.land_spec, Z.bits_0; change 0x8000 with (2 ^ 15);
    (destruct (Z.eq_dec n 15) as [-> | E]; [rewrite bit15 by lia; replace (32768 <=? x) with false by lia; reflexivity|rewrite Z.pow2_bits_false by lia; apply andb_false_r]).
Qed.
Lemma land_1 v : Z.land v 1 = if Z.odd v then 1 else 0.
Proof. change 1 with (Z.ones 1) at 1. rewrite Z.land_ones by lia. change (2 ^ 1) with 2. rewrite Zmod_odd. reflexivity. Qed.

(** ** the arithmetic unit *)
Lemma sub_ok v s : wf s -> 0 <= v < 65536 ->
  sub (ra s) v s = ((ra s - v) mod 65536, set_rc (if ra s <? v then 1 else 0) s).
Proof.
  intros (_ & HA & _) V. unfold sub. rewrite not16 by exact V. rewrite carry_out by lia. f_equal; [unfold u16; lia|]. f_equal.
  destruct (ra s <? v) eqn:E; [replace (_ <? 65536) with true by lia|replace (_ <? 65536) with false by lia]; reflexivity.
Qed.
Lemma add_ok v s : wf s -> 0 <= v < 65536 ->
  add (ra s) v s = ((ra s + v) mod 65536, set_rc (if 65536 <=? ra s + v then 1 else 0) s).
Proof.
  intros (_ & HA & _) V. unfold add. assert (E := carry_out (ra s) v 0 HA V ltac:(lia)). rewrite !Z.add_0_r in E. rewrite E. f_equal. f_equal.
  destruct (65536 <=? ra s + v) eqn:F; [replace (_ <? 65536) with false by lia|replace (_ <? 65536) with true by lia]; reflexivity.
Qed.
Lemma shift_ok v s : 0 <= v < 65536 ->
  shift v s = (v / 2 + (if negb (rc s =? 0) then 32768 else 0), set_rc (if Z.odd v then 1 else 0) s).
Proof.
  intros V. unfold shift. rewrite land_1. f_equal. rewrite Z.shiftr_div_pow2 by lia. change (2 ^ 1) with 2.
  destruct (rc s =? 0); cbn [negb]; [lia|]. apply lor_8000. lia.
Qed.

(** ** fields *)
Lemma abs_store a v s : 0 <= v < 65536 -> abs (store a v s) = put a v (abs s).
Proof. intros V. unfold abs, store, put. cbn. rewrite u16_id by exact V. reflexivity. Qed.
Lemma wf_store a v s : wf s -> wf (store a v s).
Proof. unfold wf, store. cbn. intros (H1 & H2 & H3 & H4 & H5). repeat split; try lia; destruct (_ =? _); try apply H5; apply u16_range. Qed.
Lemma wf_pc v s : 0 <= v < 65536 -> wf s -> wf (set_pc v s).
Proof. unfold wf. cbn. tauto. Qed.
Lemma wf_ra v s : 0 <= v < 65536 -> wf s -> wf (set_ra v s).
Proof. unfold wf. cbn. tauto. Qed.
Lemma wf_rp v s : 0 <= v < 65536 -> wf s -> wf (set_rp v s).
Proof. unfold wf. cbn. tauto. Qed.
Lemma wf_rc v s : 0 <= v <= 1 -> wf s -> wf (set_rc v s).
Proof. unfold wf. cbn. tauto. Qed.
Lemma wf_tks v s : wf s -> wf (set_tks v s).
Proof. unfold wf. cbn. tauto. Qed.
Lemma wf_shows v s : wf s -> wf (set_shows v s).
Proof. unfold wf. cbn. tauto. Qed.
Lemma wf_rf v s : wf s -> wf (set_rf v s).
Proof. unfold wf. cbn. tauto. Qed.
Lemma wf_mem s : wf s -> forall a, 0 <= mem s a < 65536.
Proof. unfold wf. tauto. Qed.
Lemma bool_rc (b : bool) : negb ((if b then 1 else 0) =? 0) = b.
Proof. destruct b; reflexivity. Qed.

(** ** cells which are not pointers: the same in MISC16 and EM *)
Definition pointer (m : cpu) (a : Z) : bool := (a =? 7) || match m with EM => (a =? 5) || (a =? 6) || (a =? 10) | _ => false end.
Definition is_misc (m : cpu) : Prop := m = MISC16 \/ m = EM.

Ltac cell a := let go k := (destruct (Z.eq_dec a k) as [-> | ?]) in
  go 0; [|go 1; [|go 2; [|go 3; [|go 4; [|go 5; [|go 6; [|go 7; [|go 8; [|go 9; [|go 10; [|go 11; [|go 12; [|go 13; [|go 14; [|go 15]]]]]]]]]]]]]]].
Ltac decide_eqb := repeat match goal with
  | |- context [?a =? ?b] => first [ (replace (a =? b) with false by lia) | (replace (a =? b) with true by lia) ]
  end.
Lemma ops_high m n a : is_misc m -> a < 0 \/ 15 < a -> ops m n a = O.
Proof. intros [-> | ->] H; unfold ops; decide_eqb; cbn [orb]; try reflexivity. replace ((0 <=? a) && (a <=? 15)) with false by lia. reflexivity. Qed.
Lemma rd_direct f m a s : is_misc m -> pointer m a = false -> wf s -> rd (S f) m a s = Some (direct a (abs s), s).
Proof.
  intros I NP (H1 & H2 & H3 & H4 & H5). cell a; try (destruct I as [-> | ->]; try discriminate NP; cbn -[Z.land]; unfold mread, eread, direct; cbn -[Z.land]; rewrite ?land_ffff; reflexivity).
  cbn [rd]. rewrite ops_high by (assumption || (destruct (Z_lt_le_dec a 0); [left; assumption|right; lia])). unfold direct. decide_eqb. reflexivity.
Qed.
Lemma direct_w a s : wf s -> 0 <= direct a (abs s) < 65536.
Proof. intros (H1 & H2 & H3 & H4 & H5). unfold direct, W. cbn [PC A M abs]. repeat destruct (_ =? _); try lia; apply H5. Qed.

Definition alu_cell (d : Z) : bool := (d =? 8) || (d =? 9) || ((11 <=? d) && (d <=? 15)).
(** what a write to a cell which is not a pointer does *)
Lemma wr_into f m d v s : is_misc m -> pointer m d = false -> wf s -> 0 <= v < 65536 ->
  exists t, wr (S f) m d v s = Some t /\ abs t = into d v (abs s) /\ wf t /\ rf t = rf s /\ shows t = shows s /\ tks t = tks s.
Proof.
  intros I NP W V. assert (W' := W). destruct W' as (H1 & H2 & H3 & H4 & H5).
  assert (HM : forall k, ops m k d = O -> exists t, wr (S f) m d v s = Some t /\ abs t = put d v (abs s) /\ wf t /\ rf t = rf s /\ shows t = shows s /\ tks t = tks s).
  { intros k OO. exists (store d v s). cbn [wr]. replace (ops m (shows s) d) with O by (destruct I as [-> | ->]; symmetry; exact OO). cbn [writes].
    rewrite abs_store by exact V. repeat split; try apply wf_store, W. }
  assert (K : forall r s', wf s' -> 0 <= r < 65536 -> rf s' = rf s -> shows s' = shows s -> tks s' = tks s ->
      writes (ops m (shows s) d) (match m with OISC => fun v s => Some (v, s) | URISC => fun v s => Some (uwrite d v s) | MISC16 => mwrite (wr f m) d | EM => ewrite (wr f m) d end) v s = Some (r, s') ->
      put d r (abs s') = into d v (abs s) ->
      exists t, wr (S f) m d v s = Some t /\ abs t = into d v (abs s) /\ wf t /\ rf t = rf s /\ shows t = shows s /\ tks t = tks s).
  { intros r s' W0 R E1 E2 E3 E Q. exists (store d r s'). cbn [wr]. rewrite E. rewrite abs_store by exact R. split; [reflexivity|]. split; [exact Q|]. split; [apply wf_store, W0|]. cbn. auto. }
  assert (LO := lor_w _ _ H2 V). assert (LA := land_w _ _ H2 V). assert (LX := lxor_w _ _ H2 V).
  assert (SB := sub_ok v s W V). assert (AD := add_ok v s W V). assert (SH := shift_ok v s V).
  assert (NG : (i16 (ra s) <? 0) = negative (ra s)) by (unfold i16, negative; cbv zeta; rewrite u16_id by exact H2; change (OiscSpec.W / 2) with 32768; destruct (Z.ltb_spec (ra s) 32768); lia).
  cell d; try discriminate NP.
  - apply (K v (set_pc v s)); try (apply wf_pc; assumption); try assumption; try reflexivity. destruct I as [-> | ->]; reflexivity.
  - apply (K v (if i16 (ra s) <? 0 then set_pc v s else s)); try assumption; try (destruct (i16 (ra s) <? 0); (apply wf_pc; assumption) || assumption || reflexivity).
    + destruct I as [-> | ->]; reflexivity.
    + rewrite NG. unfold into, jumps. cbn -[negative]. destruct (negative (ra s)); reflexivity.
  - apply (K v (if ra s =? 0 then set_pc v s else s)); try assumption; try (destruct (ra s =? 0); (apply wf_pc; assumption) || assumption || reflexivity).
    + destruct I as [-> | ->]; reflexivity.
    + unfold into, jumps. cbn. destruct (ra s =? 0); reflexivity.
  - apply (K v s); try assumption; try reflexivity. destruct I as [-> | ->]; reflexivity.
  - apply (K v (if rc s =? 0 then s else set_pc v s)); try assumption; try (destruct (rc s =? 0); (apply wf_pc; assumption) || assumption || reflexivity).
    + destruct I as [-> | ->]; reflexivity.
    + unfold into, jumps. cbn. destruct (rc s =? 0); reflexivity.
  - destruct I as [-> | ->]; [|discriminate NP]. destruct (HM O eq_refl) as (t & T & E & R). exists t. split; [exact T|]. split; [rewrite E; reflexivity|exact R].
  - destruct I as [-> | ->]; [|discriminate NP]. destruct (HM O eq_refl) as (t & T & E & R). exists t. split; [exact T|]. split; [rewrite E; reflexivity|exact R].
  - apply (K v (set_ra v s)); try (apply wf_ra; assumption); try assumption; try reflexivity. destruct I as [-> | ->]; reflexivity.
  - apply (K ((ra s - v) mod 65536) (set_ra ((ra s - v) mod 65536) (set_rc (if ra s <? v then 1 else 0) s))); try reflexivity; try lia.
    + apply wf_ra; [lia|]. apply wf_rc; [|assumption]. destruct (_ <? _); lia.
    + destruct I as [-> | ->]; cbn -[sub Z.modulo Z.sub]; unfold ewrite, mwrite; cbn -[sub Z.modulo Z.sub]; rewrite SB; reflexivity.
    + unfold into. cbn -[Z.modulo Z.sub]. unfold abs, setC, setA. cbn -[Z.modulo Z.sub]. rewrite bool_rc. reflexivity.
  - destruct I as [-> | ->]; [|discriminate NP]. destruct (HM O eq_refl) as (t & T & E & R). exists t. split; [exact T|]. split; [rewrite E; reflexivity|exact R].
  - apply (K ((ra s + v) mod 65536) (set_ra ((ra s + v) mod 65536) (set_rc (if 65536 <=? ra s + v then 1 else 0) s))); try reflexivity; try lia.
    + apply wf_ra; [lia|]. apply wf_rc; [|assumption]. destruct (_ <=? _); lia.
    + destruct I as [-> | ->]; cbn -[add Z.modulo Z.add]; unfold ewrite, mwrite; cbn -[add Z.modulo Z.add]; rewrite AD; reflexivity.
    + unfold into. cbn -[Z.modulo Z.add Z.leb]. unfold abs, setC, setA. cbn -[Z.modulo Z.add Z.leb]. rewrite bool_rc. reflexivity.
  - apply (K (Z.lxor (ra s) v) (set_ra (Z.lxor (ra s) v) s)); try (apply wf_ra; assumption); try assumption; try reflexivity. destruct I as [-> | ->]; reflexivity.
  - apply (K (Z.lor (ra s) v) (set_ra (Z.lor (ra s) v) s)); try (apply wf_ra; assumption); try assumption; try reflexivity. destruct I as [-> | ->]; reflexivity.
  - apply (K (Z.land (ra s) v) (set_ra (Z.land (ra s) v) s)); try (apply wf_ra; assumption); try assumption; try reflexivity. destruct I as [-> | ->]; reflexivity.
  - set (r := v / 2 + (if negb (rc s =? 0) then 32768 else 0)) in *. assert (HR : 0 <= r < 65536) by (subst r; destruct (rc s =? 0); cbn [negb]; lia).
    apply (K r (set_ra r (set_rc (if Z.odd v then 1 else 0) s))); try reflexivity; try assumption.
    + apply wf_ra; [assumption|]. apply wf_rc; [|assumption]. destruct (Z.odd v); lia.
    + destruct I as [-> | ->]; cbn -[shift]; unfold ewrite, mwrite; cbn -[shift]; rewrite SH; reflexivity.
    + unfold into. cbn -[Z.div Z.add Z.odd]. unfold abs, setC, setA. cbn -[Z.div Z.add Z.odd]. rewrite bool_rc. reflexivity.
  - assert (HI : d < 0 \/ 15 < d) by lia. destruct (HM (shows s) (ops_high m _ d I HI)) as (t & T & E & R). exists t. split; [exact T|].
    split; [rewrite E; unfold into, alu, jumps; decide_eqb; reflexivity|exact R].
Qed.

(** ** MISC16 *)
Lemma rd_misc f a s : wf s -> rd (S (S f)) MISC16 a s = Some (source a (abs s), s).
Proof.
  intros W. unfold source. destruct (Z.eqb_spec a 7) as [-> | N].
  - change (rd (S (S f)) MISC16 7 s) with (match mread (rd (S f) MISC16) 7 s with Some (r', s') => Some (r', s') | None => None end).
    unfold mread. cbn [Z.eqb Pos.eqb]. change (A (abs s)) with (ra s). destruct (Z.eqb_spec (ra s) 7) as [E | E]; [rewrite E; reflexivity|].
    rewrite rd_direct; [reflexivity|left; reflexivity| |exact W]. unfold pointer. rewrite (proj2 (Z.eqb_neq _ _) E). reflexivity.
  - apply rd_direct; [left; reflexivity| |exact W]. unfold pointer. rewrite (proj2 (Z.eqb_neq _ _) N). reflexivity.
Qed.
Lemma source_w a s : wf s -> 0 <= source a (abs s) < 65536.
Proof. intros W. unfold source. destruct (a =? 7); [|apply direct_w, W]. destruct (_ =? 7); [lia|apply direct_w, W]. Qed.
Lemma wr_misc f d v s : wf s -> 0 <= v < 65536 ->
  exists t, wr (S (S f)) MISC16 d v s = Some t /\ abs t = destination d v (abs s) /\ wf t /\ rf t = rf s /\ shows t = shows s /\ tks t = tks s.
Proof.
  intros W V. unfold destination. destruct (Z.eqb_spec d 7) as [-> | N].
  - change (wr (S (S f)) MISC16 7 v s) with (match (match mwrite (wr (S f) MISC16) 7 v s with Some (v', s') => Some (v', s') | None => None end) with Some (v', s') => Some (store 7 v' s') | None => None end).
    unfold mwrite. cbn [Z.eqb Pos.eqb]. change (A (abs s)) with (ra s). destruct (Z.eqb_spec (ra s) 7) as [E | E].
    + exists (store 7 v s). rewrite abs_store by exact V. repeat split; try apply wf_store, W.
    + destruct (wr_into f MISC16 (ra s) v s) as (t & T & Q & WT & F1 & F2 & F3); [left; reflexivity| |exact W|exact V|].
      * unfold pointer. rewrite (proj2 (Z.eqb_neq _ _) E). reflexivity.
      * rewrite T. exists (store 7 v t). rewrite abs_store by exact V. rewrite Q. split; [reflexivity|]. split; [reflexivity|]. split; [apply wf_store, WT|]. cbn. auto.
  - apply wr_into; try assumption; [left; reflexivity|]. unfold pointer. rewrite (proj2 (Z.eqb_neq _ _) N). reflexivity.
Qed.
Lemma exec_misc s : wf s -> exists t, exec MISC16 s = Some t /\ abs t = move (abs s) /\ wf t /\ rf t = rf s /\ shows t = shows s /\ tks t = tks s + 4.
Proof.
  intros W. assert (W' := W). destruct W' as (H1 & _). unfold exec. unfold depth. rewrite rd_misc by exact W. cbn [bind]. rewrite rd_misc by exact W. cbn [bind]. rewrite rd_misc by exact W. cbn [bind].
  rewrite !land_ffff.
  destruct (wr_misc 6 (source ((pc s + 1) mod 65536) (abs s)) (source (source (pc s) (abs s)) (abs s)) (set_pc ((pc s + 2) mod 65536) s)) as (t & T & Q & WT & F1 & F2 & F3).
  - apply wf_pc; [lia|exact W].
  - apply source_w, W.
  - rewrite T. cbn [bind]. eexists. split; [reflexivity|]. split; [exact Q|]. split; [apply wf_tks, WT|]. cbn [rf shows tks set_tks]. rewrite F1, F2, F3. auto.
Qed.
