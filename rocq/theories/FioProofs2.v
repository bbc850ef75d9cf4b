(** Proofs about console input: the escape decoder. *)
From Verif Require Import Base FioModel FioSpec FioObs FioProofs.

Definition ss3 (c : Z) : Z :=
  if c =? 80 then TU_F1 else if c =? 81 then TU_F2 else if c =? 82 then TU_F3
  else if c =? 83 then TU_F4 else if c =? 72 then TU_HOME else if c =? 70 then TU_END else c.
Definition csi_code (t : list Z) (c : Z) : Z :=
  match t with
  | 77 :: _ => 0
  | _ => if c =? 65 then TU_UP else if c =? 66 then TU_DOWN else if c =? 67 then TU_RIGHT
         else if c =? 68 then TU_LEFT else if c =? 72 then TU_HOME else if c =? 70 then TU_END
         else if c =? 69 then 0
         else if c =? 126 then match tilde_key (strtol0 t) with Some k => k | None => c end
         else 0
  end.
Definition mouse_code (b x y : Z) : Z :=
  Z.lor (Z.lor (Z.land (mouse_button b) (Z.lnot 16776960)) (Z.land (x - 32) 255 * 65536)) (Z.land (y - 32) 255 * 256).
Definition dcode (p : list Z) (c : Z) : Z :=
  match p with
  | [] => if (c =? 27) || (c =? -1) then 0 else c
  | [27] => if (c =? 79) || (c =? 78) || (c =? 91) then 0 else c
  | 27 :: 91 :: 77 :: t => match t with
       | b :: x :: _ => if c =? 0 then 0 else mouse_code b x c
       | _ => 0 end
  | 27 :: 91 :: t => csi_code (t ++ [c]) c
  | 27 :: 79 :: _ => ss3 c
  | 27 :: _ => c
  | [_] => if c =? -1 then 255 else 0
  | _ => 0
  end.

Definition csi_ok (t : list Z) : Prop :=
  match t with 77 :: u => (length u <= 2)%nat | _ => Forall (fun c => csi_final c = false) t end.
Inductive pend_ok : list Z -> Prop :=
| PO_nil : pend_ok []
| PO_iac : pend_ok [-1]
| PO_iac2 x : x <> 0 -> x <> -1 -> pend_ok [-1; x]
| PO_esc : pend_ok [27]
| PO_o : pend_ok [27; 79]
| PO_n : pend_ok [27; 78]
| PO_csi t : nz t -> csi_ok t -> pend_ok (27 :: 91 :: t).

Definition is_char (c : Z) : Prop := -128 <= c <= 127.
Lemma pend_nz p : pend_ok p -> nz p.
Proof. intros []; unfold nz; repeat constructor; lia || assumption. Qed.

Lemma append_ok e p c : seg e 0 (p ++ [0]) -> nz p -> (length p <= 98)%nat ->
  exists e', esc_append e c = Ok (e', Z.of_nat (length p) + 1) /\ seg e' 0 (p ++ [c; 0]).
Proof.
  intros H N L. unfold esc_append, strlen. rewrite (seg_strlen _ p) by (assumption || lia). cbn [rbind].
  rewrite awr_in by lia. cbn [rbind]. rewrite awr_in by lia. cbn [rbind].
  eexists. split; [reflexivity|]. apply seg_app in H. destruct H as [H _].
  apply seg_app. split.
  - apply seg_aset_out; [lia|]. apply seg_aset_out; [lia|]. exact H.
  - cbn [seg]. rewrite aset_other by lia. rewrite aset_same. rewrite aset_same. auto.
Qed.
Lemma append_full e p c : seg e 0 (p ++ [0]) -> nz p -> (99 <= length p)%nat -> esc_append e c = UB.
Proof.
  intros H N L. unfold esc_append, strlen. destruct (Nat.eq_dec (length p) 99) as [E|E].
  - rewrite (seg_strlen _ p) by (assumption || lia). cbn [rbind]. rewrite E. reflexivity.
  - assert (X : forall f i s, seg e i s -> nz s -> (f <= length s)%nat -> strlen_from f e i = UB).
    { induction f as [|f IH]; intros i s Hs Ns Lf; [reflexivity|]. destruct s as [|d s]; [cbn in Lf; lia|].
      cbn [seg] in Hs. destruct Hs as [Hd Hs]. inversion Ns; subst. cbn [strlen_from].
      destruct (Z.eqb_spec (e i) 0); [contradiction|]. apply (IH (i + 1) s); [assumption|assumption|cbn [length] in Lf; lia]. }
    rewrite (X 100%nat 0 p); [reflexivity| |exact N|lia]. apply seg_app in H. apply H.
Qed.
Lemma seg_cut e p : forall i r, seg e i (p ++ 0 :: r) -> seg e i (p ++ [0]).
Proof. intros i r H. apply seg_app in H. apply seg_app. cbn [seg] in *. tauto. Qed.
Lemma seg_app_nz e p c : seg e 0 (p ++ [c; 0]) -> seg e 0 (app_nz p c ++ [0]).
Proof.
  unfold app_nz. destruct (Z.eqb_spec c 0) as [->|_]; [apply seg_cut|]. rewrite <- app_assoc. auto.
Qed.
Lemma nz_app p c : nz p -> nz (app_nz p c).
Proof. intros H. unfold app_nz. destruct (Z.eqb_spec c 0); [exact H|]. apply Forall_app. split; [exact H|]. repeat constructor. assumption. Qed.
Lemma seg_clear e : seg (aset e 0 0) 0 ([] ++ [0]).
Proof. cbn. split; [reflexivity|exact I]. Qed.

Definition esc_post (f : fio) (r : res (fio * Z)) (p' : list Z) (k : Z) : Prop :=
  exists e', r = Ok (set_esc f e', k) /\ seg e' 0 (p' ++ [0]) /\ pend_ok p'.

Lemma final_cases c : csi_final c = true <-> c = 65 \/ c = 66 \/ c = 67 \/ c = 68 \/ c = 72 \/ c = 70 \/ c = 69 \/ c = 126.
Proof. unfold csi_final. cbn [existsb]. lia. Qed.

Lemma finish_post f f1 e k : f1 = set_esc f e -> esc_post f (Ok (finish_esc f1 k)) [] k.
Proof.
  intros ->. unfold finish_esc. exists (aset e 0 0). split; [reflexivity|]. split; [apply seg_clear|constructor].
Qed.

(** process_csi on a buffer that ends in a new character *)
Lemma csi_step f e t c : seg e 0 ((27 :: 91 :: t) ++ [c; 0]) -> nz t -> csi_ok t -> (length t <= 96)%nat -> is_char c ->
  esc_post f (process_csi (set_esc f e)) (pending (27 :: 91 :: t) c) (dcode (27 :: 91 :: t) c).
Proof.
  intros H N O L C. unfold process_csi. cbn [fesc set_esc].
  assert (N2 : nz (27 :: 91 :: t)) by (constructor; [lia|constructor; [lia|exact N]]).
  pose proof (seg_app_nz _ _ _ H) as H'.
  unfold strlen. rewrite (seg_strlen e (app_nz (27 :: 91 :: t) c)); [|exact H'|apply nz_app; exact N2|].
  2:{ unfold app_nz. destruct (c =? 0); [cbn [length]; lia|]. rewrite app_length. cbn [length]. lia. }
  cbn [rbind].
  assert (Keep : pending (27 :: 91 :: t) c = app_nz (27 :: 91 :: t) c -> dcode (27 :: 91 :: t) c = 0 ->
     csi_ok (app_nz t c) -> esc_post f (Ok (set_esc f e, 0)) (pending (27 :: 91 :: t) c) (dcode (27 :: 91 :: t) c)).
  { intros -> -> K. exists e. split; [reflexivity|]. split; [exact H'|].
    replace (app_nz (27 :: 91 :: t) c) with (27 :: 91 :: app_nz t c) by (unfold app_nz; destruct (c =? 0); reflexivity).
    constructor; [apply nz_app; exact N|exact K]. }
  cbn [app seg] in H. destruct H as (_ & _ & H).
  destruct (Z.eqb_spec c 0) as [->|Cz].
  - (* a zero byte changes nothing *)
    assert (KP : pending (27 :: 91 :: t) 0 = 27 :: 91 :: t).
    { unfold pending. destruct t as [|m u]; [reflexivity|]. destruct (Z.eq_dec m 77) as [->|Hm].
      - rewrite andb_false_r. reflexivity.
      - destruct m as [|q|q]; try reflexivity. do 7 (destruct q; try reflexivity; try (exfalso; apply Hm; reflexivity)). }
    change (app_nz (27 :: 91 :: t) 0) with (27 :: 91 :: t).
    assert (K0 : dcode (27 :: 91 :: t) 0 = 0).
    { unfold dcode. destruct t as [|m u]; [reflexivity|]. destruct (Z.eq_dec m 77) as [->|Hm].
      - destruct u as [|? [|? ?]]; reflexivity.
      - assert (Hc : forall w, csi_code (m :: w) 0 = 0).
        { intros w. unfold csi_code. destruct m as [|q|q]; try reflexivity; do 7 (destruct q; try reflexivity). }
        destruct m as [|q|q]; try apply Hc. do 7 (destruct q; try apply Hc). exfalso; apply Hm; reflexivity. }
    assert (Y : esc_post f (Ok (set_esc f e, 0)) (pending (27 :: 91 :: t) 0) (dcode (27 :: 91 :: t) 0)).
    { apply Keep; [rewrite KP; reflexivity|exact K0|exact O]. }
    destruct (0 + Z.of_nat (length (27 :: 91 :: t)) <? 3) eqn:E3; [exact Y|].
    destruct t as [|m u]; [cbn in E3; discriminate|]. cbn [app seg] in H. destruct H as [Hm H].
    change (0 + 1 + 1) with 2 in Hm. rewrite Hm.
    destruct (Z.eqb_spec m 77) as [->|Hm7].
    + unfold csi_ok in O. replace (_ =? 6) with false by (cbn [length]; lia). exact Y.
    + assert (F : Forall (fun c => csi_final c = false) (m :: u)).
      { unfold csi_ok in O. destruct m as [|q|q]; try exact O. do 7 (destruct q; try exact O). exfalso; apply Hm7; reflexivity. }
      assert (La : csi_final (e (0 + Z.of_nat (length (27 :: 91 :: m :: u)) - 1)) = false).
      { assert (S2 : seg e 2 (m :: u)). { split; [exact Hm|]. apply seg_app in H. apply H. }
        destruct (exists_last (l := m :: u) ltac:(discriminate)) as (v & w & Ev). rewrite Ev in *.
        apply Forall_app in F. destruct F as [_ F]. apply seg_app in S2. destruct S2 as [_ S2]. cbn [seg] in S2.
        destruct S2 as [S2 _]. cbn [length]. rewrite app_length. cbn [length].
        replace (0 + Z.of_nat (S (S (length v + 1))) - 1) with (2 + Z.of_nat (length v)) by lia. rewrite S2.
        inversion F; assumption. }
      set (d := e (0 + Z.of_nat (length (27 :: 91 :: m :: u)) - 1)) in *. clearbody d. unfold csi_final in La. cbn [existsb] in La.
      replace (d =? 65) with false by lia. replace (d =? 66) with false by lia. replace (d =? 67) with false by lia.
      replace (d =? 68) with false by lia. replace (d =? 72) with false by lia. replace (d =? 70) with false by lia.
      replace (d =? 69) with false by lia. replace (d =? 126) with false by lia. exact Y.
  - (* a new character *)
    assert (EA : length (app_nz (27 :: 91 :: t) c) = (S (S (length t)) + 1)%nat)
      by (unfold app_nz; destruct (Z.eqb_spec c 0); [contradiction|]; rewrite app_length; reflexivity).
    rewrite EA. clear EA.
    replace (0 + Z.of_nat (S (S (length t)) + 1) <? 3) with false by lia.
    assert (Hc : e (0 + Z.of_nat (S (S (length t)) + 1) - 1) = c).
    { apply seg_app in H. destruct H as [_ H]. cbn [seg] in H. destruct H as [H _]. rewrite <- H. f_equal. lia. }
    rewrite Hc.
    assert (CH : chars_of e 2 (Z.to_nat (0 + Z.of_nat (S (S (length t)) + 1) - 2)) = t ++ [c]).
    { replace (Z.to_nat (0 + Z.of_nat (S (S (length t)) + 1) - 2)) with (length (t ++ [c])) by (rewrite app_length; cbn [length]; lia).
      apply seg_chars. change 2 with (0 + 1 + 1). replace (t ++ [c; 0]) with ((t ++ [c]) ++ [0]) in H by (rewrite <- app_assoc; reflexivity).
      apply seg_app in H. apply H. }
    rewrite CH.
    assert (E2 : e 2 = hd 0 (t ++ [c])).
    { destruct t as [|m u]; cbn [app seg] in H; destruct H as [H _]; exact H. }
    rewrite E2. clear E2 CH Hc.
    destruct (Z.eqb_spec (hd 0 (t ++ [c])) 77) as [E7|E7].
    + destruct t as [|m u].
      * cbn in E7. subst c. cbn [length]. apply Keep; [reflexivity|reflexivity|]. cbn. lia.
      * cbn in E7. subst m. cbn [length]. unfold csi_ok in O.
        destruct u as [|b [|x [|y u]]].
        -- apply Keep; [unfold pending; cbn [length]; replace (2 <=? Z.of_nat 0) with false by reflexivity; reflexivity|reflexivity|].
           unfold app_nz. destruct (c =? 0); cbn; lia.
        -- apply Keep; [unfold pending; cbn [length]; replace (2 <=? Z.of_nat 1) with false by reflexivity; reflexivity|reflexivity|].
           unfold app_nz. destruct (c =? 0); cbn; lia.
        -- cbn [length]. change (0 + Z.of_nat (3 + 1 + 2) =? 6) with true.
           replace (0 + Z.of_nat (S (S (S (S (S 0)))) + 1) =? 6) with true by reflexivity. cbv iota.
           cbn [app seg] in H. destruct H as (_ & B & X & Y & _).
           change (0 + 1 + 1 + 1) with 3 in *. change (3 + 1) with 4 in *. change (4 + 1) with 5 in *.
           rewrite B, X, Y. unfold pending, dcode. cbn [length]. replace (2 <=? Z.of_nat 2) with true by reflexivity.
           destruct (Z.eqb_spec c 0); [contradiction|]. cbn [negb andb].
           apply (finish_post f (set_esc f e) e). reflexivity.
        -- cbn in O. lia.
    + assert (EP : pending (27 :: 91 :: t) c = if csi_final c then [] else app_nz (27 :: 91 :: t) c).
      { unfold pending. destruct t as [|m u]; [reflexivity|]. cbn in E7.
        destruct m as [|q|q]; try reflexivity. do 7 (destruct q; try reflexivity). exfalso; apply E7; reflexivity. }
      assert (ED : dcode (27 :: 91 :: t) c = csi_code (t ++ [c]) c).
      { unfold dcode. destruct t as [|m u]; [reflexivity|]. cbn in E7.
        destruct m as [|q|q]; try reflexivity. do 7 (destruct q; try reflexivity). exfalso; apply E7; reflexivity. }
      assert (EC : csi_code (t ++ [c]) c =
         if c =? 65 then TU_UP else if c =? 66 then TU_DOWN else if c =? 67 then TU_RIGHT
         else if c =? 68 then TU_LEFT else if c =? 72 then TU_HOME else if c =? 70 then TU_END
         else if c =? 69 then 0
         else if c =? 126 then match tilde_key (strtol0 (t ++ [c])) with Some k => k | None => c end
         else 0).
      { unfold csi_code. destruct (t ++ [c]) as [|m u] eqn:ET; [destruct t; discriminate|]. cbn in E7.
        destruct m as [|q|q]; try reflexivity. do 7 (destruct q; try reflexivity). exfalso; apply E7; reflexivity. }
      destruct (csi_final c) eqn:F.
      * rewrite ED, EC, EP. clear ED EC EP Keep.
        assert (X : forall k, esc_post f (Ok (finish_esc (set_esc f e) k)) [] k) by (intros k; apply (finish_post f _ e); reflexivity).
        apply final_cases in F.
        destruct F as [-> | [-> | [-> | [-> | [-> | [-> | [-> | ->]]]]]]]; cbn [Z.eqb Pos.eqb]; try apply X.
        destruct (tilde_key (strtol0 (t ++ [126]))); apply X.
      * assert (NF : ~ (c = 65 \/ c = 66 \/ c = 67 \/ c = 68 \/ c = 72 \/ c = 70 \/ c = 69 \/ c = 126))
          by (rewrite <- final_cases; congruence).
        replace (c =? 65) with false in * by lia. replace (c =? 66) with false in * by lia. replace (c =? 67) with false in * by lia.
        replace (c =? 68) with false in * by lia. replace (c =? 72) with false in * by lia. replace (c =? 70) with false in * by lia.
        replace (c =? 69) with false in * by lia. replace (c =? 126) with false in * by lia.
        apply Keep; [exact EP|rewrite ED; exact EC|].
        unfold app_nz. destruct (Z.eqb_spec c 0); [contradiction|].
        destruct t as [|m u].
        -- cbn in E7 |- *. destruct c as [|q|q]; try (repeat constructor; exact F).
           do 7 (destruct q; try (repeat constructor; exact F)).
        -- cbn in E7. assert (F2 : Forall (fun c => csi_final c = false) ((m :: u) ++ [c])).
           { apply Forall_app. split; [|repeat constructor; exact F].
             unfold csi_ok in O. destruct m as [|q|q]; try exact O. do 7 (destruct q; try exact O). exfalso; apply E7; reflexivity. }
           cbn [app csi_ok] in *. destruct m as [|q|q]; try exact F2. do 7 (destruct q; try exact F2). exfalso; apply E7; reflexivity.
Qed.

Lemma seg_get e p : forall i n, seg e i p -> (n < length p)%nat -> e (i + Z.of_nat n) = nth n p 0.
Proof.
  induction p as [|c p IH]; intros i n H L; [cbn in L; lia|]. cbn [seg length] in *. destruct H as [H1 H2].
  destruct n as [|n]; [cbn [nth]; rewrite <- H1; f_equal; lia|]. cbn [nth]. rewrite <- (IH (i + 1) n H2 ltac:(lia)). f_equal. lia.
Qed.

Lemma esc_step f p c : seg (fesc f) 0 (p ++ [0]) -> pend_ok p -> (length p <= 98)%nat -> is_char c ->
  esc_post f (process_esc f c) (pending p c) (dcode p c).
Proof.
  intros H O L C. pose proof (pend_nz _ O) as N. unfold process_esc. cbv zeta.
  destruct (append_ok (fesc f) p c H N L) as (e' & EA & S1).
  assert (Uc : (u8 c =? 27) = (c =? 27) /\ (u8 c =? 255) = (c =? -1)) by (unfold u8, is_char in *; split; lia).
  destruct Uc as [U1 U2].
  assert (H0 : fesc f 0 = hd 0 p) by (destruct p; cbn in H; destruct H as [H _]; exact H).
  rewrite H0. destruct O as [| |x X0 X1| | | |t Nt Ot]; cbn [hd].
  - change (u8 0 =? 27) with false. change (u8 0 =? 255) with false. cbv iota. rewrite U1, U2.
    unfold pending, dcode. destruct (Z.eqb_spec c 27) as [->|E27].
    + cbn [orb]. eexists. split; [reflexivity|]. split; [|constructor]. cbn [app seg].
      rewrite aset_other by lia. rewrite !aset_same. auto.
    + destruct (Z.eqb_spec c (-1)) as [->|E1]; cbn [orb].
      * eexists. split; [reflexivity|]. split; [|constructor]. cbn [app seg].
        rewrite aset_other by lia. rewrite !aset_same. auto.
      * exists (fesc f). split; [destruct f; reflexivity|]. split; [exact H|constructor].
  - change (u8 (-1) =? 27) with false. change (u8 (-1) =? 255) with true. cbv iota.
    unfold process_telnet.
    destruct (append_ok (fesc f) [-1] (i8 (u8 c)) H N L) as (e2 & EA2 & S2). rewrite EA2. cbn [rbind fst snd length].
    assert (I8 : i8 (u8 c) = c) by (unfold i8, u8, is_char in *; destruct (c mod 256 mod 256 <? 128) eqn:E; lia).
    rewrite I8 in *. rewrite U2. change (Z.of_nat 1 + 1 =? 2) with true. change (Z.of_nat 1 + 1 =? 3) with false.
    rewrite andb_true_r. unfold pending, dcode. destruct (Z.eqb_spec c (-1)) as [->|E1].
    + apply (finish_post f _ e2). reflexivity.
    + exists e2. split; [reflexivity|]. split; [apply seg_app_nz; exact S2|].
      unfold app_nz. destruct (Z.eqb_spec c 0); [constructor|]. constructor; assumption.
  - change (u8 (-1) =? 27) with false. change (u8 (-1) =? 255) with true. cbv iota.
    unfold process_telnet.
    destruct (append_ok (fesc f) [-1; x] (i8 (u8 c)) H N L) as (e2 & EA2 & S2). rewrite EA2. cbn [rbind fst snd length].
    change (Z.of_nat 2 + 1 =? 2) with false. change (Z.of_nat 2 + 1 =? 3) with true. rewrite andb_false_r.
    unfold pending, dcode. apply (finish_post f _ e2). reflexivity.
  - change (u8 27 =? 27) with true. cbv iota. rewrite EA. cbn [rbind fst snd length]. cbn [app seg] in S1.
    destruct S1 as (S0 & S1 & S2 & _). change (0 + 1) with 1 in *. rewrite S1.
    change (Z.of_nat 1 + 1 <? 3) with true. unfold pending, dcode.
    assert (K : seg e' 0 ([27; c] ++ [0])) by (cbn; auto).
    destruct (Z.eqb_spec c 79) as [->|]; [exists e'; split; [reflexivity|]; split; [exact K|constructor]|].
    destruct (Z.eqb_spec c 78) as [->|]; [exists e'; split; [reflexivity|]; split; [exact K|constructor]|].
    destruct (Z.eqb_spec c 91) as [->|]; cbn [orb].
    + assert (E : process_csi (set_esc f e') = Ok (set_esc f e', 0)).
      { unfold process_csi. cbn [fesc set_esc]. unfold strlen. rewrite (seg_strlen e' [27; 91]); [reflexivity|exact K| |cbn; lia].
        repeat constructor; lia. }
      rewrite E. exists e'. split; [reflexivity|]. split; [exact K|]. constructor; constructor.
    + apply (finish_post f _ e'). reflexivity.
  - change (u8 27 =? 27) with true. cbv iota. rewrite EA. cbn [rbind fst snd length]. cbn [app seg] in S1.
    destruct S1 as (S0 & S1 & S2 & _). change (0 + 1) with 1 in *. rewrite S1.
    change (79 =? 79) with true. change (Z.of_nat 2 + 1 <? 3) with false. cbv iota.
    unfold pending, dcode, ss3. apply (finish_post f _ e'). reflexivity.
  - change (u8 27 =? 27) with true. cbv iota. rewrite EA. cbn [rbind fst snd length]. cbn [app seg] in S1.
    destruct S1 as (S0 & S1 & S2 & _). change (0 + 1) with 1 in *. rewrite S1.
    change (78 =? 79) with false. change (78 =? 78) with true. change (Z.of_nat 2 + 1 <? 3) with false. cbv iota.
    unfold pending, dcode. apply (finish_post f _ e'). reflexivity.
  - change (u8 27 =? 27) with true. cbv iota. rewrite EA. cbn [rbind fst snd].
    assert (S1' := S1). cbn [app seg] in S1'. destruct S1' as (_ & Q & _). change (0 + 1) with 1 in Q. rewrite Q.
    change (91 =? 79) with false. change (91 =? 78) with false. change (91 =? 91) with true. cbv iota.
    apply csi_step; try assumption. cbn [length] in L. lia.
Qed.
Lemma esc_full f p c : seg (fesc f) 0 (p ++ [0]) -> pend_ok p -> (99 <= length p)%nat -> process_esc f c = UB.
Proof.
  intros H O L. pose proof (pend_nz _ O) as N. unfold process_esc. cbv zeta.
  assert (H0 : fesc f 0 = hd 0 p) by (destruct p; cbn in H; destruct H as [H _]; exact H).
  rewrite H0. destruct O as [| |x X0 X1| | | |t Nt Ot]; cbn [length] in L; try lia. cbn [hd].
  change (u8 27 =? 27) with true. cbv iota. rewrite (append_full _ _ _ H N L). reflexivity.
Qed.

(** A decoded value ends the sequence. *)
Lemma code_done p c : pend_ok p -> dcode p c <> 0 -> pending p c = [].
Proof.
  intros O. destruct O as [| |x X0 X1| | | |t Nt Ot]; unfold dcode, pending.
  - destruct ((c =? 27) || (c =? -1)); congruence.
  - destruct (c =? -1); congruence.
  - reflexivity.
  - destruct ((c =? 79) || (c =? 78) || (c =? 91)); congruence.
  - reflexivity.
  - reflexivity.
  - assert (G : forall t, csi_code (t ++ [c]) c <> 0 -> csi_final c = true).
    { intros t0. unfold csi_code. destruct (t0 ++ [c]) as [|m u] eqn:E; [destruct t0; discriminate|].
      assert (Q : (if c =? 65 then TU_UP else if c =? 66 then TU_DOWN else if c =? 67 then TU_RIGHT
         else if c =? 68 then TU_LEFT else if c =? 72 then TU_HOME else if c =? 70 then TU_END
         else if c =? 69 then 0 else if c =? 126 then match tilde_key (strtol0 (m :: u)) with Some k => k | None => c end
         else 0) <> 0 -> csi_final c = true).
      { unfold csi_final. cbn [existsb].
        destruct (c =? 65), (c =? 66), (c =? 67), (c =? 68), (c =? 72), (c =? 70), (c =? 69), (c =? 126); cbn; congruence. }
      destruct m as [|q|q]; try exact Q. do 7 (destruct q; try exact Q). congruence. }
    destruct t as [|m u]; [intros K; apply (G []) in K; rewrite K; reflexivity|].
    assert (Q : csi_code ((m :: u) ++ [c]) c <> 0 -> (if csi_final c then [] else app_nz (27 :: 91 :: m :: u) c) = [])
      by (intros K; apply (G (m :: u)) in K; rewrite K; reflexivity).
    destruct m as [|q|q]; try exact Q. do 7 (destruct q; try exact Q).
    destruct u as [|b [|x u]]; try congruence. destruct (Z.eqb_spec c 0); [congruence|]. intros _. cbn [length negb].
    rewrite andb_true_r. replace (2 <=? _) with true by lia. reflexivity.
Qed.
