(** Proofs about console input: sessions. *)
From Verif Require Import Base FioModel FioSpec FioObs FioProofs FioProofs2 FioProofs3 FioProofs4.

Lemma init_ok gbuf gline gesc gplu glast : Rf (cooked (new_fio gbuf gline gesc gplu glast)) fresh [].
Proof.
  constructor; try reflexivity.
  - cbn. split; reflexivity || exact I.
  - split; [constructor|cbn; lia].
  - constructor.
  - apply ring_new.
  - cbn. split; reflexivity || exact I.
  - constructor.
Qed.

Lemma read_loop_ok n : forall r q, ring_ok r q -> Forall (fun v => seen v <> -1) q ->
  exists r' b, read_loop n r = (r', map seen (firstn n q), b) /\ ring_ok r' (skipn n q).
Proof.
  induction n as [|n IH]; intros r q H F; [exists r, false; split; [reflexivity|exact H]|].
  destruct (ring_get r q H) as [G1 G2]. cbn [read_loop]. rewrite G2. destruct q as [|v t]; cbn [qget fst snd] in *.
  - change (-1 =? -1) with true. cbv iota. eexists _, _. split; [reflexivity|]. exact G1.
  - inversion F; subst. destruct (Z.eqb_spec (seen v) (-1)); [contradiction|].
    destruct (IH (fst (rget r)) t G1 H3) as (r' & b & E & R). rewrite E. cbn [fst snd firstn map skipn].
    eexists _, _. split; [reflexivity|exact R].
Qed.
Lemma Rf_ring f e p r q : Rf f e p -> ring_ok r q ->
  Rf (set_ring f r) (mkEd (before e) (after e) (past e) (place e) (nl e) q) p.
Proof. intros H R. destruct H. constructor; cbn [fcook set_ring fline fcur fhist flast fring fesc past place nl input before after text]; assumption. Qed.

Definition inp (v : Z) : Prop := v = 10 \/ printable v.
Lemma inp_seen q : Forall inp q -> map seen q = q /\ Forall (fun v => seen v <> -1) q.
Proof.
  induction 1 as [|v t Hv H IH]; [split; [reflexivity|constructor]|]. destruct IH as [I1 I2].
  assert (seen v = v) by (unfold seen, inp, printable in *; replace (0 <? v) with true by lia; lia).
  cbn [map]. rewrite H0, I1. split; [reflexivity|]. constructor; [|exact I2]. rewrite H0. unfold inp, printable in Hv. lia.
Qed.
Lemma qputs_inp q vs : Forall inp q -> Forall inp vs -> Forall inp (qputs q vs).
Proof.
  revert q. induction vs as [|v t IH]; intros q H V; [exact H|]. inversion V; subst. unfold qputs. cbn [fold_left]. apply IH; [|assumption].
  unfold qput. destruct (_ <? _); [|exact H]. apply Forall_app. split; [exact H|constructor; [assumption|constructor]].
Qed.
Lemma edit_inp e k : Forall inp (input e) -> Forall printable (text e) -> Forall inp (input (edit e k)).
Proof.
  intros H T. destruct k; cbn [edit]; try exact H.
  - destruct (_ <? _); exact H.
  - destruct (rev (before e)); exact H.
  - destruct (after e); exact H.
  - destruct (_ && _); [exact H|]. cbn [input]. apply qputs_inp; [exact H|]. apply Forall_app. split.
    + eapply Forall_impl; [|exact T]. intros a Ha. right. exact Ha.
    + repeat constructor.
Qed.

Lemma firstn_inp n q : Forall inp q -> Forall inp (firstn n q) /\ Forall inp (skipn n q).
Proof. intros H. rewrite <- (firstn_skipn n q) in H. apply Forall_app in H. exact H. Qed.

Lemma session_ok l : forall f e, Rf f e [] -> Forall inp (input e) -> Forall valid l ->
  exists f', session f l = Ok (f', snd (expected e l)) /\ Rf f' (fst (expected e l)) [] /\ Forall inp (input (fst (expected e l))).
Proof.
  induction l as [|a l IH]; intros f e H I V; [exists f; auto|]. inversion V as [|? ? Va Vl]; subst. cbn [session expected].
  destruct a as [[k bs]|n]; cbn [do_act expect].
  - destruct (enc_ok f e k bs H Va) as (f1 & evs & E & R1 & _). cbn [snd]. rewrite E. cbn [rbind fst snd].
    assert (I1 : Forall inp (input (type_key e (k, bs)))).
    { unfold type_key. cbn [fst snd]. apply edit_inp.
      - destruct bs as [|b ?]; [exact I|]. destruct b as [|q|q]; try exact I. do 5 (destruct q; try exact I).
      - assert (T : Forall printable (text e)) by (apply (R_text _ _ _ H)).
        destruct bs as [|b ?]; [exact T|]. destruct b as [|q|q]; try exact T. do 5 (destruct q; try exact T). }
    destruct (IH f1 (type_key e (k, bs)) R1 I1 Vl) as (f' & E2 & R2 & I2). rewrite E2. cbn [rbind fst snd].
    destruct (expected (type_key e (k, bs)) l) as [e2 os]. cbn [fst snd] in *. exists f'. auto.
  - destruct (inp_seen _ I) as [S1 S2].
    destruct (read_loop_ok n (fring f) (input e) (R_ring _ _ _ H) S2) as (r' & b & E & R).
    destruct (firstn_inp n _ I) as [I1 I2]. destruct (inp_seen _ I1) as [S3 _]. rewrite S3 in E.
    assert (E1 : exists f1, fst (fst (read_dev f false (Z.of_nat n))) = f1 /\ snd (fst (read_dev f false (Z.of_nat n))) = firstn n (input e) /\
       Rf f1 (mkEd (before e) (after e) (past e) (place e) (nl e) (skipn n (input e))) []).
    { unfold read_dev. destruct (Z.eqb_spec (Z.of_nat n) 0) as [Z0|Z0].
      - assert (n = 0%nat) by lia. subst n. cbn [fst snd firstn skipn]. exists f. split; [reflexivity|]. split; [reflexivity|].
        destruct e; exact H.
      - rewrite Nat2Z.id, E. cbn [fst snd]. eexists. split; [reflexivity|]. split; [reflexivity|]. apply Rf_ring; assumption. }
    destruct E1 as (f1 & Ea & Eb & R1). cbn [rbind fst snd]. rewrite Ea, Eb.
    set (e1 := mkEd _ _ _ _ _ _) in *.
    destruct (IH f1 e1 R1 I2 Vl) as (f' & E2 & R2 & I3). rewrite E2. cbn [rbind fst snd].
    destruct (expected e1 l) as [e2 os]. cbn [fst snd] in *. exists f'. auto.
Qed.

(** What can be seen of a state. *)
Lemma upto_seg s : forall n a i, seg a i (s ++ [0]) -> nz s -> (length s < n)%nat -> upto_nul n a i = s.
Proof.
  induction s as [|c s IH]; intros n a i H N L; (destruct n as [|n]; [cbn in L; lia|]); cbn [app seg] in H; cbn [upto_nul].
  - destruct H as [-> _]. reflexivity.
  - destruct H as [-> H]. inversion N; subst. destruct (Z.eqb_spec c 0); [contradiction|]. f_equal. apply IH; [assumption|assumption|cbn in L; lia].
Qed.
Lemma line_seen f e p : Rf f e p -> line_of f = text e.
Proof.
  intros H. unfold line_of. apply upto_seg; [apply (R_line _ _ _ H)|apply printable_nz; apply (R_text _ _ _ H)|].
  destruct (R_text _ _ _ H). lia.
Qed.
Lemma drain_ok q : forall n r, ring_ok r q -> (length q <= n)%nat -> drain n r = map seen q.
Proof.
  induction q as [|v t IH]; intros n r H L.
  - destruct n as [|n]; [reflexivity|]. cbn [drain]. replace (rlu r =? rff r) with true; [reflexivity|].
    symmetry. apply Z.eqb_eq. apply (ring_empty r []); [exact H|reflexivity].
  - destruct n as [|n]; [cbn in L; lia|]. cbn [drain]. destruct (Z.eqb_spec (rlu r) (rff r)) as [E|E].
    { apply (ring_empty r (v :: t)) in E; [discriminate|exact H]. }
    destruct (ring_get r _ H) as [G1 G2]. cbn [qget fst snd] in *. rewrite G2. cbn [map]. f_equal. apply IH; [exact G1|cbn in L; lia].
Qed.
Lemma readable_ok f q : ring_ok (fring f) q -> readable f = map seen q.
Proof. intros H. unfold readable. apply drain_ok; [exact H|]. destruct H as (_ & _ & L & _). lia. Qed.

(* ------------------------------------------------------- any byte sequence *)
Lemma mouse_known b : mouse_button b = 0 <-> existsb (Z.eqb b) known_buttons = false.
Proof.
  unfold mouse_button, known_buttons. cbn [existsb].
  unfold TU_BTN1, TU_BTN2, TU_BTN3, TU_CBTN1, TU_CBTN2, TU_CBTN3, TU_ABTN1, TU_ABTN2, TU_ABTN3, TU_SUP, TU_SDOWN, TU_CSUP, TU_CSDOWN.
  destruct (b =? 32), (b =? 33), (b =? 34), (b =? 48), (b =? 49), (b =? 50), (b =? 40), (b =? 41), (b =? 42), (b =? 96), (b =? 97), (b =? 112), (b =? 113);
    cbn; split; intros; try discriminate; reflexivity.
Qed.
Lemma big_code p c : pend_ok p -> Forall is_char p -> is_char c -> (255 < dcode p c <-> bad_mouse p c = true).
Proof.
  intros O F C.
  assert (G : forall t, (match t with 77 :: _ => False | _ => True end) -> dcode (27 :: 91 :: t) c <= 255 /\ bad_mouse (27 :: 91 :: t) c = false).
  { intros t Ht. assert (E : dcode (27 :: 91 :: t) c = csi_code (t ++ [c]) c).
    { unfold dcode. destruct t as [|m u]; [reflexivity|]. destruct m as [|q|q]; try reflexivity. do 7 (destruct q; try reflexivity). contradiction. }
    split.
    - rewrite E. unfold csi_code. destruct (t ++ [c]) as [|m u] eqn:Et; [destruct t; discriminate|].
      assert (Q : forall k, k = (if c =? 65 then TU_UP else if c =? 66 then TU_DOWN else if c =? 67 then TU_RIGHT
         else if c =? 68 then TU_LEFT else if c =? 72 then TU_HOME else if c =? 70 then TU_END
         else if c =? 69 then 0 else if c =? 126 then match tilde_key (strtol0 (m :: u)) with Some k => k | None => c end
         else 0) -> k <= 255).
      { unfold TU_UP, TU_DOWN, TU_RIGHT, TU_LEFT, TU_HOME, TU_END, is_char in *. intros k.
        repeat match goal with |- context [if ?q then _ else _] => destruct q end; try lia.
        destruct (tilde_key (strtol0 (m :: u))) as [k0|] eqn:T; [|lia]. apply tilde_neg in T. lia. }
      destruct m as [|q|q]; try (apply Q; reflexivity). do 7 (destruct q; try (apply Q; reflexivity)). lia.
    - unfold bad_mouse. destruct t as [|m u]; [reflexivity|]. destruct m as [|q|q]; try reflexivity. do 7 (destruct q; try reflexivity). contradiction. }
  destruct O as [| |x X0 X1| | | |t Nt Ot].
  - unfold dcode, bad_mouse, is_char in *. destruct (_ || _); split; intros; try discriminate; lia.
  - unfold dcode, bad_mouse. destruct (_ =? _); split; intros; try discriminate; lia.
  - unfold dcode, bad_mouse. split; intros; try discriminate; lia.
  - unfold dcode, bad_mouse, is_char in *. destruct (_ || _); split; intros; try discriminate; lia.
  - unfold dcode, bad_mouse, ss3, TU_F1, TU_F2, TU_F3, TU_F4, TU_HOME, TU_END, is_char in *.
    repeat match goal with |- context [if ?q then _ else _] => destruct q end; split; intros; try discriminate; lia.
  - unfold dcode, bad_mouse, is_char in *. split; intros; try discriminate; lia.
  - destruct t as [|m u]; [destruct (G [] I) as [G1 G2]; rewrite G2; split; intros; [lia|discriminate]|].
    destruct (Z.eq_dec m 77) as [->|Hm].
    + unfold csi_ok in Ot. destruct u as [|b [|x [|y u]]]; [split; cbn; intros; try discriminate; lia|split; cbn; intros; try discriminate; lia| |cbn in Ot; lia].
      unfold bad_mouse, dcode. destruct (c =? 0) eqn:C0; [cbn; split; intros; try discriminate; lia|].
      rewrite !Forall_cons_iff in F. destruct F as (_ & _ & _ & Fb & Fx & _).
      unfold mouse_code. destruct (existsb (Z.eqb b) known_buttons) eqn:K.
      * cbn [negb andb]. split; [|discriminate]. intros L. exfalso.
        assert (M : mouse_button b <> 0) by (intros E; apply mouse_known in E; congruence).
        destruct (Z.lt_ge_cases (mouse_button b) 0) as [N|N].
        -- assert (Z.lor (Z.lor (Z.land (mouse_button b) (Z.lnot 16776960)) (Z.land (x - 32) 255 * 65536)) (Z.land (c - 32) 255 * 256) < 0); [|lia].
           apply Z.lor_neg. left. apply Z.lor_neg. left. apply Z.land_neg. split; [assumption|reflexivity].
        -- revert M N. unfold mouse_button, TU_BTN1, TU_BTN2, TU_BTN3, TU_CBTN1, TU_CBTN2, TU_CBTN3, TU_ABTN1, TU_ABTN2, TU_ABTN3, TU_SUP, TU_SDOWN, TU_CSUP, TU_CSDOWN.
           repeat match goal with |- context [if ?q then _ else _] => destruct q end; lia.
      * apply mouse_known in K. rewrite K, Z.land_0_l, Z.lor_0_l. cbn [negb andb]. rewrite !land255.
        set (X := (x - 32) mod 256). set (Y := (c - 32) mod 256).
        assert (HX : 0 <= X < 256) by (subst X; lia). assert (HY : 0 <= Y < 256) by (subst Y; lia).
        assert (EL : Z.lor (X * 65536) (Y * 256) = X * 65536 + Y * 256).
        { assert (LD : Z.land (X * 65536) (Y * 256) = 0).
          { apply Z.bits_inj'. intros n Hn. rewrite Z.land_spec, Z.bits_0.
            change 65536 with (2 ^ 16). change 256 with (2 ^ 8). rewrite !Z.mul_pow2_bits by lia.
            destruct (Z.lt_ge_cases n 16).
            - rewrite (Z.testbit_neg_r X) by lia. reflexivity.
            - rewrite (Z.bits_above_log2 Y (n - 8)); [apply andb_false_r|lia|].
              destruct (Z.eq_dec Y 0) as [->|HY0]; [cbn; lia|]. assert (Z.log2 Y < 8) by (apply Z.log2_lt_pow2; [lia|change (2 ^ 8) with 256; lia]). lia. }
          rewrite <- Z.lxor_lor by exact LD. symmetry. apply Z.add_nocarry_lxor. exact LD. }
        rewrite EL. unfold is_char in *. subst X Y. destruct ((x =? 32) && (c =? 32)) eqn:E; cbn [negb]; split; intros; try discriminate; lia.
    + destruct (G (m :: u)) as [G1 G2]; [destruct m as [|q|q]; try exact I; do 7 (destruct q; try exact I); exfalso; apply Hm; reflexivity|].
      rewrite G2. split; intros; [lia|discriminate].
Qed.
Lemma pending_char p c : Forall is_char p -> is_char c -> Forall is_char (pending p c).
Proof.
  intros F C. assert (A : Forall is_char (app_nz p c)) by (unfold app_nz; destruct (c =? 0); [exact F|]; apply Forall_app; split; [exact F|repeat constructor; apply C]).
  assert (E : pending p c = [] \/ pending p c = [c] \/ pending p c = [27; c] \/ pending p c = app_nz p c).
  { unfold pending. destruct p as [|a p]; [destruct (_ || _); auto|].
    assert (D : forall (a0 : Z) (p0 : list Z), p0 = p -> match p0 with [] => if c =? -1 then [] else app_nz (a :: p) c | _ :: _ => [] end = [] \/
                           match p0 with [] => if c =? -1 then [] else app_nz (a :: p) c | _ :: _ => [] end = app_nz (a :: p) c).
    { intros _ p0 _. destruct p0; [destruct (_ =? _)|]; auto. }
    destruct (Z.eq_dec a 27) as [->|Ha].
    - destruct p as [|b p]; [destruct (_ || _); auto|]. destruct (Z.eq_dec b 91) as [->|Hb].
      + destruct p as [|m u]; [destruct (csi_final c); auto|]. destruct (Z.eq_dec m 77) as [->|Hm].
        * destruct (_ && _); auto.
        * assert (X : forall l, l = (if csi_final c then [] else app_nz (27 :: 91 :: m :: u) c) -> l = [] \/ l = [c] \/ l = [27; c] \/ l = app_nz (27 :: 91 :: m :: u) c)
            by (intros l ->; destruct (csi_final c); auto).
          destruct m as [|q|q]; try (apply X; reflexivity). do 7 (destruct q; try (apply X; reflexivity)). exfalso; apply Hm; reflexivity.
      + destruct b as [|q|q]; auto. do 7 (destruct q; auto). exfalso; apply Hb; reflexivity.
    - assert (X : forall l, l = match p with [] => if c =? -1 then [] else app_nz (a :: p) c | _ :: _ => [] end -> l = [] \/ l = [c] \/ l = [27; c] \/ l = app_nz (a :: p) c)
        by (intros l ->; destruct (D 0 p eq_refl) as [->| ->]; auto).
      destruct a as [|q|q]; try (apply X; destruct p; reflexivity). do 5 (destruct q; try (apply X; destruct p; reflexivity)). exfalso; apply Ha; reflexivity. }
  destruct E as [-> | [-> | [-> | ->]]]; [constructor|repeat constructor; apply C| |exact A].
  constructor; [unfold is_char; lia|]. repeat constructor; apply C.
Qed.

Lemma bytes_exact bs : forall f e p, Rf f e p -> Forall is_char p -> Forall is_u8 bs ->
  (overrun p bs /\ process_all f bs = UB) \/
  (~ overrun p bs /\ exists f' evs e' p', process_all f bs = Ok (f', evs) /\ Rf f' e' p').
Proof.
  induction bs as [|b t IH]; intros f e p H F B; [right; split; [auto|]; exists f, [], e, p; auto|].
  inversion B as [|? ? Bb Bt]; subst. cbn [overrun process_all]. pose proof (char_of_byte b Bb) as C.
  pose proof (big_code p (i8 b) (R_pend _ _ _ H) F C) as BC.
  destruct (Nat.le_gt_cases 99 (length p)) as [L|L].
  { left. split; [auto|]. rewrite (process_crash f e p b H Bb (or_introl L)). reflexivity. }
  destruct (Z.lt_ge_cases 255 (dcode p (i8 b))) as [D|D].
  { left. split; [right; left; apply BC; exact D|]. rewrite (process_crash f e p b H Bb (or_intror D)). reflexivity. }
  assert (ST : exists f1 evs e1 r, process f b = Ok (f1, r, evs) /\ Rf f1 e1 (pending p (i8 b))).
  { destruct (Z.eq_dec (dcode p (i8 b)) 0) as [K|K].
    - destruct (process_part f e p b H Bb ltac:(lia) K) as (f1 & E & R1). exists f1, [], (forget_nl e), 0. auto.
    - destruct (process_key f e p b H Bb ltac:(lia) K ltac:(lia)) as (f1 & r & evs & E & R1 & _).
      rewrite (code_done p (i8 b) (R_pend _ _ _ H) K). exists f1, evs, (edit e (key_of (dcode p (i8 b)))), r. auto. }
  destruct ST as (f1 & evs & e1 & r & E & R1). rewrite E. cbn [rbind fst snd].
  destruct (IH f1 e1 _ R1 (pending_char _ _ F C) Bt) as [[O U]|[O (f' & evs' & e' & p' & U & R2)]].
  - left. split; [auto|]. rewrite U. reflexivity.
  - right. split.
    + intros [X|[X|X]]; [lia|apply BC in X; lia|contradiction].
    + rewrite U. cbn [rbind fst snd]. exists f', (evs ++ evs'), e', p'. auto.
Qed.
