(** Proofs about console input: bytes, keys, sequences of keys. *)
From Verif Require Import Base FioModel FioSpec FioObs FioProofs FioProofs2 FioProofs3.

Lemma mouse_shape b x y : mouse_code b x y < 0 \/ mouse_code b x y mod 256 = 0.
Proof.
  unfold mouse_code. destruct (Z.eq_dec (mouse_button b) 0) as [E|E].
  - right. rewrite E, Z.land_0_l, Z.lor_0_l. change 256 with (2 ^ 8). rewrite <- Z.land_ones by lia.
    rewrite Z.land_lor_distr_l, !Z.land_ones by lia.
    replace (Z.land (x - 32) 255 * 65536) with (Z.land (x - 32) 255 * 256 * 2 ^ 8) by (change (2 ^ 8) with 256; lia).
    rewrite !Z.mod_mul by lia. reflexivity.
  - left. assert (mouse_button b < 0).
    { revert E. unfold mouse_button, TU_BTN1, TU_BTN2, TU_BTN3, TU_CBTN1, TU_CBTN2, TU_CBTN3, TU_ABTN1, TU_ABTN2, TU_ABTN3, TU_SUP, TU_SDOWN, TU_CSUP, TU_CSDOWN.
      repeat match goal with |- context [if ?q then _ else _] => destruct q end; lia. }
    apply Z.lor_neg. left. apply Z.lor_neg. left. apply Z.land_neg. split; [assumption|reflexivity].
Qed.
Lemma tilde_neg n k : tilde_key n = Some k -> k < 0.
Proof.
  unfold tilde_key, TU_HOME, TU_INS, TU_DEL, TU_END, TU_PGUP, TU_PGDOWN, TU_F1, TU_F2, TU_F3, TU_F4, TU_F5, TU_F6, TU_F7, TU_F8, TU_F9, TU_F10, TU_F11, TU_F12.
  repeat match goal with |- context [if ?q then _ else _] => destruct q end; intros E; try discriminate; apply (f_equal (fun o => match o with Some z => z | None => 0 end)) in E; lia.
Qed.
Lemma code_values p c : pend_ok p -> is_char c ->
  dcode p c = c \/ dcode p c <= 0 \/ dcode p c = 255 \/ dcode p c mod 256 = 0.
Proof.
  intros O C. destruct O as [| |x X0 X1| | | |t Nt Ot]; unfold dcode.
  - destruct (_ || _); [right; left|left]; lia.
  - destruct (_ =? _); [right; right; left|right; left]; lia.
  - right. left. lia.
  - destruct (_ || _); [right; left|left]; lia.
  - unfold ss3, TU_F1, TU_F2, TU_F3, TU_F4, TU_HOME, TU_END.
    repeat match goal with |- context [if ?q then _ else _] => destruct q end; try (right; left; lia). left. reflexivity.
  - left. reflexivity.
  - assert (G : forall t, csi_code (t ++ [c]) c = c \/ csi_code (t ++ [c]) c <= 0).
    { intros t0. unfold csi_code. destruct (t0 ++ [c]) as [|m u] eqn:E; [destruct t0; discriminate|].
      assert (Q : forall k, k = (if c =? 65 then TU_UP else if c =? 66 then TU_DOWN else if c =? 67 then TU_RIGHT
         else if c =? 68 then TU_LEFT else if c =? 72 then TU_HOME else if c =? 70 then TU_END
         else if c =? 69 then 0 else if c =? 126 then match tilde_key (strtol0 (m :: u)) with Some k => k | None => c end
         else 0) -> k = c \/ k <= 0).
      { unfold TU_UP, TU_DOWN, TU_RIGHT, TU_LEFT, TU_HOME, TU_END. intros k.
        repeat match goal with |- context [if ?q then _ else _] => destruct q end; try lia.
        destruct (tilde_key (strtol0 (m :: u))) as [k0|] eqn:T; [|lia]. apply tilde_neg in T. lia. }
      destruct m as [|q|q]; try (apply Q; reflexivity). do 7 (destruct q; try (apply Q; reflexivity)). right. lia. }
    destruct t as [|m u]; [destruct (G []); tauto|].
    assert (Q : forall k, k = csi_code ((m :: u) ++ [c]) c -> k = c \/ k <= 0 \/ k = 255 \/ k mod 256 = 0)
      by (intros k ->; destruct (G (m :: u)); tauto).
    destruct m as [|q|q]; try (apply Q; reflexivity). do 7 (destruct q; try (apply Q; reflexivity)).
    destruct u as [|b [|x u]]; try (right; left; lia). destruct (c =? 0); [right; left; lia|].
    destruct (mouse_shape b x c); [right; left; lia|auto].
Qed.
Lemma code_printable p c : pend_ok p -> is_char c -> printable (dcode p c) -> c = dcode p c.
Proof. intros O C P. destruct (code_values p c O C) as [E|[E|[E|E]]]; unfold printable in P; try lia. Qed.

Lemma Rf_esc f e p e' p' : Rf f e p -> seg e' 0 (p' ++ [0]) -> pend_ok p' -> Rf (set_esc f e') e p'.
Proof. intros H S O. destruct H. constructor; cbn [fcook set_esc fline fcur fhist flast fring fesc]; assumption. Qed.
Lemma Rf_forget f e p : Rf f e p -> Rf (set_last f 0) (forget_nl e) p.
Proof. intros H. destruct H. constructor; cbn [fcook set_last fline fcur fhist flast fring fesc forget_nl past place nl input before after]; try assumption. reflexivity. Qed.

Lemma char_of_byte b : is_u8 b -> is_char (i8 b).
Proof. unfold is_u8, is_char, i8, u8. intros. destruct (b mod 256 <? 128) eqn:E; lia. Qed.

(** One byte. *)
Lemma process_part f e p b : Rf f e p -> is_u8 b -> (length p <= 98)%nat -> dcode p (i8 b) = 0 ->
  exists f', process f b = Ok (f', 0, []) /\ Rf f' (forget_nl e) (pending p (i8 b)).
Proof.
  intros H B L K. unfold process. cbv zeta. rewrite (R_cook _ _ _ H). cbn [negb].
  destruct (esc_step f p (i8 b) (R_esc _ _ _ H) (R_pend _ _ _ H) L (char_of_byte b B)) as (e' & E & S & O).
  rewrite E. cbn [rbind fst snd]. rewrite K. pose proof (Rf_esc _ _ _ _ _ H S O) as R1. unfold cook_key.
  rewrite (strlen_line _ _ _ R1). cbn [rbind]. change (0 =? 0) with true. cbv iota.
  exists (set_last (set_esc f e') 0). split; [reflexivity|]. apply Rf_forget. exact R1.
Qed.
Lemma process_key f e p b : Rf f e p -> is_u8 b -> (length p <= 98)%nat -> dcode p (i8 b) <> 0 -> dcode p (i8 b) <= 255 ->
  cook_post f e [] (key_of (dcode p (i8 b))) (process f b).
Proof.
  intros H B L K K2. unfold process. cbv zeta. rewrite (R_cook _ _ _ H). cbn [negb].
  destruct (esc_step f p (i8 b) (R_esc _ _ _ H) (R_pend _ _ _ H) L (char_of_byte b B)) as (e' & E & S & O).
  rewrite E. cbn [rbind fst snd]. pose proof (code_done p (i8 b) (R_pend _ _ _ H) K) as D. rewrite D in *.
  apply (cook_ok (set_esc f e') e (i8 b)); [apply (Rf_esc _ _ _ _ _ H S O)|exact K|exact K2|].
  apply code_printable; [apply (R_pend _ _ _ H)|apply char_of_byte; exact B].
Qed.
Lemma process_crash f e p b : Rf f e p -> is_u8 b -> (99 <= length p)%nat \/ 255 < dcode p (i8 b) -> process f b = UB.
Proof.
  intros H B D. unfold process. cbv zeta. rewrite (R_cook _ _ _ H). cbn [negb].
  destruct (Nat.le_gt_cases 99 (length p)) as [L|L].
  - rewrite (esc_full f p (i8 b) (R_esc _ _ _ H) (R_pend _ _ _ H) L). reflexivity.
  - destruct D as [D|D]; [lia|].
    destruct (esc_step f p (i8 b) (R_esc _ _ _ H) (R_pend _ _ _ H) ltac:(lia) (char_of_byte b B)) as (e' & E & S & O).
    rewrite E. cbn [rbind fst snd]. set (k := dcode p (i8 b)) in *. clearbody k. unfold cook_key.
    rewrite (strlen_line _ _ _ (Rf_esc _ _ _ _ _ H S O)). cbn [rbind]. cbv zeta.
    unfold TU_LEFT, TU_RIGHT, TU_HOME, TU_END, TU_UP, TU_DOWN, TU_DEL.
    replace (k =? 0) with false by lia. replace (k =? -12) with false by lia. replace (k =? -13) with false by lia.
    replace ((k =? -14) || (k =? 1)) with false by lia. replace ((k =? -15) || (k =? 5)) with false by lia.
    replace (k =? -10) with false by lia. replace (k =? -11) with false by lia.
    replace ((k =? 10) || (k =? 13)) with false by lia. replace ((k =? 127) || (k =? 8)) with false by lia.
    replace (k =? -18) with false by lia. replace (k =? 11) with false by lia. replace (k <? 0) with false by lia.
    unfold isprint. replace ((-1 <=? k) && (k <=? 255)) with false by lia. reflexivity.
Qed.

(* ------------------------------------------------------------------- keys *)
Definition key_post (f : fio) (e : ed) (kb : key * list Z) (r : res (fio * list ev)) : Prop :=
  exists f' evs, r = Ok (f', evs) /\ Rf f' (type_key e kb) [] /\
    forall t p, shows t p (text e) (Z.of_nat (length (before e))) ->
      shows (play t evs) (base_after (match snd kb with 27 :: _ => forget_nl e | _ => e end) (fst kb) p)
        (text (type_key e kb)) (Z.of_nat (length (before (type_key e kb)))).

Lemma key_1 f e k b : Rf f e [] -> is_u8 b -> dcode [] (i8 b) <> 0 -> dcode [] (i8 b) <= 255 -> key_of (dcode [] (i8 b)) = k -> b <> 27 ->
  key_post f e (k, [b]) (process_all f [b]).
Proof.
  intros H B K1 K2 EK N. destruct (process_key f e [] b H B ltac:(cbn; lia) K1 K2) as (f' & ret & evs & E & R1 & EC).
  rewrite EK in *. cbn [process_all]. rewrite E. cbn [rbind fst snd]. rewrite app_nil_r.
  exists f', evs. split; [reflexivity|]. unfold type_key. cbn [fst snd].
  replace (match b with 27 => forget_nl e | _ => e end) with e.
  2:{ destruct b as [|q|q]; try reflexivity. do 5 (destruct q; try reflexivity). contradiction. }
  split; [exact R1|exact EC].
Qed.
(** an escape sequence: all bytes but the last decode to 0 *)
Fixpoint esc_path (p : list Z) (bs : list Z) (k : key) : Prop :=
  match bs with
  | [] => False
  | b :: t => is_u8 b /\ (length p <= 98)%nat /\
      match t with
      | [] => dcode p (i8 b) <> 0 /\ dcode p (i8 b) <= 255 /\ key_of (dcode p (i8 b)) = k
      | _ => dcode p (i8 b) = 0 /\ esc_path (pending p (i8 b)) t k
      end
  end.
Lemma path_run k bs : forall f e p, Rf f e p -> nl e = 0 -> esc_path p bs k ->
  exists f' evs, process_all f bs = Ok (f', evs) /\ Rf f' (edit e k) [] /\ echo_ok e k evs.
Proof.
  induction bs as [|b t IH]; intros f e p H N P; [contradiction|]. cbn [esc_path] in P. destruct P as (B & L & P).
  destruct t as [|b2 t].
  - destruct P as (K1 & K2 & K3). destruct (process_key f e p b H B L K1 K2) as (f' & ret & evs & E & R1 & EC).
    rewrite K3 in *. cbn [process_all]. rewrite E. cbn [rbind fst snd]. rewrite app_nil_r. exists f', evs. auto.
  - destruct P as (K & P). destruct (process_part f e p b H B L K) as (f1 & E & R1).
    assert (FE : forget_nl e = e) by (destruct e; cbn in N; subst; reflexivity). rewrite FE in R1.
    destruct (IH f1 e _ R1 N P) as (f' & evs & E2 & R2 & EC).
    change (process_all f (b :: b2 :: t)) with (r <- process f b ;; r2 <- process_all (fst (fst r)) (b2 :: t) ;; Ok (fst r2, snd r ++ snd r2)).
    rewrite E. cbn [rbind fst snd]. rewrite E2. cbn [rbind fst snd app]. exists f', evs. auto.
Qed.
Lemma key_seq f e k bs : Rf f e [] -> esc_path [27] bs k -> key_post f e (k, 27 :: bs) (process_all f (27 :: bs)).
Proof.
  intros H P. destruct (process_part f e [] 27 H ltac:(unfold is_u8; lia) ltac:(cbn; lia) ltac:(reflexivity)) as (f1 & E & R1).
  change (pending [] (i8 27)) with [27] in R1.
  destruct (path_run k bs f1 (forget_nl e) [27] R1 eq_refl P) as (f' & evs & E2 & R2 & EC).
  change (process_all f (27 :: bs)) with (r <- process f 27 ;; r2 <- process_all (fst (fst r)) bs ;; Ok (fst r2, snd r ++ snd r2)).
  rewrite E. cbn [rbind fst snd]. rewrite E2. cbn [rbind fst snd app].
  exists f', evs. split; [reflexivity|]. unfold type_key. cbn [fst snd]. split; [exact R2|]. exact EC.
Qed.

Ltac lit := vm_compute; repeat split; discriminate || reflexivity || lia.
Lemma enc_ok f e k bs : Rf f e [] -> enc k bs -> key_post f e (k, bs) (process_all f bs).
Proof.
  intros H E. destruct E;
  lazymatch goal with
  | |- key_post _ _ (_, 27 :: 79 :: ?c :: []) _ => tryif is_var c then idtac else (apply key_seq; [exact H|lit])
  | |- key_post _ _ (_, 27 :: 91 :: _ ++ _) _ => idtac
  | |- key_post _ _ (_, 27 :: _) _ => apply key_seq; [exact H|lit]
  | |- key_post _ _ (_, [?c]) _ => tryif is_var c then idtac else
      (apply key_1; [exact H|unfold is_u8; lia|vm_compute; discriminate|vm_compute; discriminate|reflexivity|discriminate])
  end.
  - unfold printable in *. assert (I : i8 c = c) by (unfold i8, u8; replace (c mod 256 <? 128) with true by lia; lia).
    assert (D : dcode [] c = c) by (unfold dcode; replace ((c =? 27) || (c =? -1)) with false by lia; reflexivity).
    apply key_1; [exact H|unfold is_u8; lia|rewrite I, D; lia|rewrite I, D; lia| |lia].
    rewrite I, D. unfold key_of, TU_LEFT, TU_RIGHT, TU_HOME, TU_END, TU_UP, TU_DOWN, TU_DEL.
    replace (c =? -12) with false by lia. replace (c =? -13) with false by lia.
    replace ((c =? -14) || (c =? 1)) with false by lia. replace ((c =? -15) || (c =? 5)) with false by lia.
    replace (c =? -10) with false by lia. replace (c =? -11) with false by lia.
    replace ((c =? 10) || (c =? 13)) with false by lia. replace ((c =? 127) || (c =? 8)) with false by lia.
    replace (c =? -18) with false by lia. replace (c =? 11) with false by lia.
    replace ((32 <=? c) && (c <=? 126)) with true by lia. reflexivity.
  - apply key_seq; [exact H|]. assert (c = 80 \/ c = 81 \/ c = 82 \/ c = 83) as C by lia.
    destruct C as [-> | [-> | [-> | ->]]]; lit.
  - unfold idle_numbers in H0. cbn [In] in H0.
    repeat (destruct H0 as [<- | H0]; [apply key_seq; [exact H|lit]|]). contradiction.
Qed.
